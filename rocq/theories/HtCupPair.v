(** Proof part of C74: a pair of quads. *)

From Coq Require Import ZArith List Bool Lia.
From Verif Require Import Ints HtModel HtSpec HtBits HtForward HtBackward HtUvlcProps HtLuts HtLutsProps HtCupModel HtCupSpec HtCupVlc HtCupSamples.
Import ListNotations.
Local Open Scope Z_scope.

(** ** The bits of an entry that tell significance *)

Lemma rho_cases : forall q, exists r, In r (upto 16) /\ Z.land q 240 = 16 * r.
Proof.
  intros q. exists ((q / 16) mod 16). pose proof (Z.mod_pos_bound (q / 16) 16 ltac:(lia)) as R. split; [apply upto_in; exact R |].
  change 240 with (Z.shiftl 15 4).
  replace (16 * ((q / 16) mod 16)) with (Z.shiftl ((q / 16) mod 16) 4) by (rewrite Z.shiftl_mul_pow2 by lia; change (2 ^ 4) with 16; lia).
  change 16 with (2 ^ 4). rewrite <- Z.land_ones by lia. rewrite <- Z.shiftr_div_pow2 by lia. change (Z.ones 4) with 15.
  apply Z.bits_inj'. intros j J. destruct (Z.lt_ge_cases j 4) as [K | K].
  - rewrite Z.land_spec, !Z.shiftl_spec_low by lia. apply andb_false_r.
  - rewrite Z.land_spec, !Z.shiftl_spec by lia. rewrite Z.land_spec, Z.shiftr_spec by lia. f_equal. f_equal. lia.
Qed.
Lemma sig_rho : forall q n, (n < 4)%nat -> q_sig q n = q_sig (Z.land q 240) n.
Proof. intros q n N. unfold q_sig. rewrite Z.land_spec. destruct n as [| [| [| [| n]]]]; try lia; symmetry; apply andb_true_r. Qed.
Lemma land_sub : forall q a, Z.land 240 a = a -> Z.land q a = Z.land (Z.land q 240) a.
Proof. intros q a E. rewrite <- Z.land_assoc, E. reflexivity. Qed.
Lemma next_rho : forall first q, next_c first q = next_c first (Z.land q 240).
Proof. intros [|] q; unfold next_c; [rewrite (land_sub q 16), (land_sub q 224) by reflexivity | rewrite (land_sub q 64), (land_sub q 128) by reflexivity]; reflexivity. Qed.

Definition next_check (r : Z) : bool :=
  let q := 16 * r in
  (next_c true q =? bit (q_sig q 0 || q_sig q 1) + 2 * bit (q_sig q 2) + 4 * bit (q_sig q 3)) && (next_c false q =? 2 * bit (q_sig q 2 || q_sig q 3)) &&
  Bool.eqb (negb (Z.land q (u32 (q - 1)) =? 0)) (two_or_more q).
Lemma next_checked : forallb next_check (upto 16) = true.
Proof. vm_compute. reflexivity. Qed.
Lemma next_facts : forall q, next_c true q = bit (q_sig q 0 || q_sig q 1) + 2 * bit (q_sig q 2) + 4 * bit (q_sig q 3) /\
  next_c false q = 2 * bit (q_sig q 2 || q_sig q 3) /\ negb (Z.land (Z.land q 240) (u32 (Z.land q 240 - 1)) =? 0) = two_or_more q.
Proof.
  intros q. rewrite (next_rho true), (next_rho false). unfold two_or_more. rewrite !(sig_rho q) by lia. destruct (rho_cases q) as (r & I & E). rewrite E.
  pose proof next_checked as C. rewrite forallb_forall in C. specialize (C r I). unfold next_check in C. cbv zeta in C. apply andb_prop in C. destruct C as (C & C3). apply andb_prop in C. destruct C as (C1 & C2).
  apply Z.eqb_eq in C1, C2. apply eqb_prop in C3. unfold two_or_more in C3. rewrite C3. tauto.
Qed.

(** ** Places in the block *)

Definition locsf (A : Z) (R : bool) : Z := let l := Z.shiftr 255 (2 * (4 - A)) in if R then l else Z.land l 85.
Definition insf (A : Z) (R : bool) (j : nat) : bool := (Z.of_nat (Nat.div j 2) <? A) && (R || Nat.even j).
Definition out_of (A : Z) (R : bool) (k : nat) (q : Z) : bool := existsb (fun n => q_sig q n && negb (insf A R (k + n))) [0; 1; 2; 3]%nat.
Definition locs_check (A : Z) (R : bool) : bool :=
  forallb (fun j => Bool.eqb (Z.testbit (locsf A R) (Z.of_nat j)) (insf A R j)) (seq 0 8) &&
  forallb (fun r0 => forallb (fun r1 =>
    Bool.eqb (negb (Z.land (Z.lor (Z.shiftr (16 * r0) 4) (16 * r1)) (not32 (locsf A R)) =? 0)) (out_of A R 0 (16 * r0) || out_of A R 4 (16 * r1))) (upto 16)) (upto 16).
Lemma locs_checked : forallb (fun A => locs_check A true && locs_check A false) [1; 2; 3; 4] = true.
Proof. vm_compute. reflexivity. Qed.
Lemma locs_facts : forall A R, 1 <= A <= 4 -> (forall j, (j < 8)%nat -> Z.testbit (locsf A R) (Z.of_nat j) = insf A R j) /\
  forall q0 q1, negb (Z.land (Z.lor (Z.shiftr (Z.land q0 240) 4) (Z.land q1 240)) (not32 (locsf A R)) =? 0) = out_of A R 0 q0 || out_of A R 4 q1.
Proof.
  intros A R HA. assert (C : locs_check A R = true).
  { pose proof locs_checked as C. rewrite forallb_forall in C. specialize (C A ltac:(cbn [In]; lia)). apply andb_prop in C. destruct R; tauto. }
  unfold locs_check in C. apply andb_prop in C. destruct C as (C1 & C2). split.
  - intros j J. rewrite forallb_forall in C1. apply eqb_prop, C1, in_seq. lia.
  - intros q0 q1. destruct (rho_cases q0) as (r0 & I0 & E0). destruct (rho_cases q1) as (r1 & I1 & E1). rewrite forallb_forall in C2. specialize (C2 r0 I0). rewrite forallb_forall in C2. specialize (C2 r1 I1).
    apply eqb_prop in C2. rewrite E0, E1, C2. unfold out_of. cbn [existsb]. rewrite !(sig_rho q0), !(sig_rho q1), E0, E1 by lia. reflexivity.
Qed.
Section Place.
Variables (width height x y : Z).
Hypothesis X : x < width.
Hypothesis Y : y < height.
Definition cols : Z := Z.min 4 (width - x).
Definition tall : bool := y + 2 <=? height.
Lemma cols_range : 1 <= cols <= 4.
Proof. unfold cols. lia. Qed.
Lemma locs_eq : locs_of width height x y = locsf cols tall.
Proof.
  unfold locs_of, locsf, cols, tall. destruct (Z.ltb_spec width (x + 4)).
  - rewrite (Z.shiftl_mul_pow2 _ 1) by lia. change (2 ^ 1) with 2. replace (2 * (4 - Z.min 4 (width - x))) with ((x + 4 - width) * 2) by lia. reflexivity.
  - replace (2 * (4 - Z.min 4 (width - x))) with 0 by lia. reflexivity.
Qed.
Lemma insf_eq : forall k n, (k = 0 \/ k = 2)%nat -> (n < 4)%nat -> insf cols tall (2 * k + n) = (x + Z.of_nat k + Z.of_nat (Nat.div n 2) <? width) && (y + Z.of_nat (Nat.modulo n 2) <? height).
Proof.
  intros k n K N. unfold insf, cols, tall. f_equal.
  - destruct K as [-> | ->]; destruct n as [| [| [| [| n]]]]; try lia; cbn [Nat.mul Nat.add Nat.div Nat.divmod fst Nat.sub];
      match goal with |- (?a <? ?b) = (?c <? ?d) => destruct (Z.ltb_spec a b), (Z.ltb_spec c d); try reflexivity; exfalso; cbn in *; lia end.
  - destruct K as [-> | ->]; destruct n as [| [| [| [| n]]]]; try lia; cbn [Nat.mul Nat.add Nat.even orb Nat.modulo Nat.divmod snd Nat.sub]; rewrite ?orb_true_r, ?orb_false_r;
      match goal with |- context [?c <? height] => destruct (Z.ltb_spec c height) end; try (destruct (Z.leb_spec (y + 2) height)); try reflexivity; exfalso; cbn in *; lia.
Qed.
Lemma out_eq : forall k i q, (k = 0 \/ k = 2)%nat -> 2 * Z.of_nat i = x + Z.of_nat k -> out_of cols tall (2 * k) q = outside width height y i q.
Proof.
  intros k i q K I. unfold out_of, outside. cbn [existsb]. rewrite I, !insf_eq by lia. rewrite !negb_andb, <- !Z.leb_antisym. reflexivity.
Qed.
End Place.

(** ** Positions *)

Lemma pos_inj : forall w X Y X' Y', 0 <= X < w -> 0 <= X' < w -> Y * w + X = Y' * w + X' -> X = X' /\ Y = Y'.
Proof. intros w X Y X' Y' H H' E. assert (Y = Y') by nia. subst. split; [lia | reflexivity]. Qed.

(** What the four writes for quad [i] of line [h] of quads change. *)
Lemma quad_data : forall p w hh i h data (a b c d : smp) (ins : nat -> bool) y sp, y = 2 * h -> sp = y * w + 2 * i -> 0 <= i -> 0 <= h ->
  (forall n, (n < 4)%nat -> ins n = (2 * i + Z.of_nat (Nat.div n 2) <? w) && (y + Z.of_nat (Nat.modulo n 2) <? hh)) ->
  let D := wr (ins 3%nat) (wr (ins 2%nat) (wr (ins 1%nat) (wr (ins 0%nat) data sp (enc p a)) (sp + w) (enc p b)) (sp + 1) (enc p c)) (sp + 1 + w) (enc p d) in
  (forall X Y, 0 <= X < w -> 0 <= Y < hh -> D (Y * w + X) = if (X / 2 =? i) && (Y / 2 =? h) then enc p (nth (Z.to_nat (2 * (X mod 2) + Y mod 2)) [a; b; c; d] None) else data (Y * w + X)) /\
  (forall j, ~ 0 <= j < w * hh -> D j = data j).
Proof.
  intros p w hh i h data a b c d ins y sp Ey Es Hi Hh I D.
  pose proof (I 0%nat ltac:(lia)) as I0. pose proof (I 1%nat ltac:(lia)) as I1. pose proof (I 2%nat ltac:(lia)) as I2. pose proof (I 3%nat ltac:(lia)) as I3.
  cbn [Nat.div Nat.divmod fst snd Nat.modulo Nat.sub Z.of_nat Pos.of_succ_nat] in I0, I1, I2, I3.
  assert (W : forall (g : bool) dd pos v j, wr g dd pos v j = if g && (j =? pos) then v else dd j) by (intros [|] dd pos v j; reflexivity). unfold D. clear D I.
  split.
  - intros X Y HX HY. rewrite !W. rewrite I0, I1, I2, I3. clear I0 I1 I2 I3.
    pose proof (Z.div_mod X 2 ltac:(lia)) as DX. pose proof (Z.mod_pos_bound X 2 ltac:(lia)) as MX. pose proof (Z.div_mod Y 2 ltac:(lia)) as DY. pose proof (Z.mod_pos_bound Y 2 ltac:(lia)) as MY.
    set (bx := X mod 2) in *. set (by_ := Y mod 2) in *. set (qx := X / 2) in *. set (qy := Y / 2) in *. clearbody bx by_ qx qy.
    assert (T : forall dx dy, 0 <= dx <= 1 -> 0 <= dy <= 1 ->
      ((2 * i + dx <? w) && (y + dy <? hh) && (Y * w + X =? sp + dx + dy * w)) = ((qx =? i) && (qy =? h) && (bx =? dx) && (by_ =? dy))).
    { intros dx dy H1 H2. destruct (Z.eqb_spec (Y * w + X) (sp + dx + dy * w)) as [E | E].
      - rewrite andb_true_r. destruct (Z.ltb_spec (2 * i + dx) w) as [K | K].
        + destruct (pos_inj w X Y (2 * i + dx) (y + dy) HX ltac:(lia) ltac:(rewrite E, Es; ring)) as (P1 & P2).
          replace (qx =? i) with true by (symmetry; apply Z.eqb_eq; lia). replace (qy =? h) with true by (symmetry; apply Z.eqb_eq; lia). replace (bx =? dx) with true by (symmetry; apply Z.eqb_eq; lia).
          replace (by_ =? dy) with true by (symmetry; apply Z.eqb_eq; lia). destruct (Z.ltb_spec (y + dy) hh); [reflexivity | lia].
        + cbn [andb]. destruct (Z.eqb_spec qx i); [| reflexivity]. destruct (Z.eqb_spec bx dx); [lia |]. rewrite andb_false_r. reflexivity.
      - rewrite andb_false_r. destruct (Z.eqb_spec qx i); [| reflexivity]. destruct (Z.eqb_spec qy h); [| reflexivity]. destruct (Z.eqb_spec bx dx); [| reflexivity]. destruct (Z.eqb_spec by_ dy); [| reflexivity].
        exfalso. apply E. rewrite Es. replace X with (2 * i + dx) by lia. replace Y with (y + dy) by lia. ring. }
    pose proof (T 0 0 ltac:(lia) ltac:(lia)) as T0. pose proof (T 0 1 ltac:(lia) ltac:(lia)) as T1. pose proof (T 1 0 ltac:(lia) ltac:(lia)) as T2. pose proof (T 1 1 ltac:(lia) ltac:(lia)) as T3. clear T.
    replace (sp + 0 + 0 * w) with sp in T0 by ring. replace (sp + 0 + 1 * w) with (sp + w) in T1 by ring. replace (sp + 1 + 0 * w) with (sp + 1) in T2 by ring. replace (sp + 1 + 1 * w) with (sp + 1 + w) in T3 by ring.
    rewrite T0, T1, T2, T3. destruct ((qx =? i) && (qy =? h)); [| reflexivity]. cbn [andb].
    assert (bx = 0 \/ bx = 1) as [-> | ->] by lia; assert (by_ = 0 \/ by_ = 1) as [-> | ->] by lia; reflexivity.
  - intros j J. rewrite !W. rewrite I0, I1, I2, I3. clear I0 I1 I2 I3 W.
    assert (T : forall dx dy, 0 <= dx <= 1 -> 0 <= dy <= 1 -> ((2 * i + dx <? w) && (y + dy <? hh) && (j =? sp + dx + dy * w)) = false).
    { intros dx dy H1 H2. destruct (Z.ltb_spec (2 * i + dx) w); [| reflexivity]. destruct (Z.ltb_spec (y + dy) hh); [| reflexivity]. destruct (Z.eqb_spec j (sp + dx + dy * w)) as [E | E]; [| reflexivity].
      exfalso. apply J. rewrite E, Es. replace (y * w + 2 * i + dx + dy * w) with ((y + dy) * w + (2 * i + dx)) by ring. split; [nia |]. assert ((y + dy) * w + (2 * i + dx) < (y + dy + 1) * w) by nia. nia. }
    pose proof (T 0 0 ltac:(lia) ltac:(lia)) as T0. pose proof (T 0 1 ltac:(lia) ltac:(lia)) as T1. pose proof (T 1 0 ltac:(lia) ltac:(lia)) as T2. pose proof (T 1 1 ltac:(lia) ltac:(lia)) as T3. clear T.
    replace (sp + 0 + 0 * w) with sp in T0 by ring. replace (sp + 0 + 1 * w) with (sp + w) in T1 by ring. replace (sp + 1 + 0 * w) with (sp + 1) in T2 by ring. replace (sp + 1 + 1 * w) with (sp + 1 + w) in T3 by ring.
    rewrite T0, T1, T2, T3. reflexivity.
Qed.
