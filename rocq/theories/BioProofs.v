(** Proofs about packet-header bit input and output. *)

From Coq Require Import ZArith List Bool Lia.
From Verif Require Import ZBits BioModel BioSpec.
Import ListNotations.
Local Open Scope Z_scope.

Ltac Zify.zify_post_hook ::= Z.div_mod_to_equations.

(** ** Bits *)

Lemma bits_of_length : forall n v, List.length (bits_of n v) = n.
Proof. induction n; intros; simpl; auto. Qed.

Lemma bits_of_split : forall k n v, bits_of (n + k) v = bits_of n (v / 2 ^ Z.of_nat k) ++ bits_of k v.
Proof.
  induction n; intros v; [reflexivity |]. cbn [Nat.add bits_of app]. rewrite IHn. f_equal.
  rewrite <- shr_div by lia. rewrite Z.shiftr_spec by lia. f_equal. lia.
Qed.

Lemma bits_of_mod : forall n m v, (n <= m)%nat -> bits_of n (v mod 2 ^ Z.of_nat m) = bits_of n v.
Proof.
  induction n; intros m v H; [reflexivity |]. cbn [bits_of]. rewrite IHn by lia. f_equal.
  rewrite Z.mod_pow2_bits_low by lia. reflexivity.
Qed.

Lemma bits_of_zero : forall n, bits_of n 0 = zeros n.
Proof. induction n; [reflexivity |]. cbn [bits_of]. rewrite IHn, Z.bits_0. reflexivity. Qed.

Lemma bits_of_mod0 : forall n v, v mod 2 ^ Z.of_nat n = 0 -> bits_of n v = zeros n.
Proof. intros. rewrite <- (bits_of_mod n n) by lia. rewrite H. apply bits_of_zero. Qed.

Lemma number_bits : forall n v, number (bits_of n v) = v mod 2 ^ Z.of_nat n.
Proof.
  induction n; intros v.
  - cbn. rewrite Z.mod_1_r. reflexivity.
  - cbn [bits_of number]. rewrite bits_of_length, IHn.
    replace (Z.of_nat (S n)) with (Z.of_nat n + 1) by lia.
    rewrite (mod_top_bit v (Z.of_nat n)) by lia.
    destruct (Z.testbit v (Z.of_nat n)); reflexivity.
Qed.

Lemma number_range : forall l, 0 <= number l < 2 ^ Z.of_nat (List.length l).
Proof.
  induction l as [| b l IH]; [cbn; lia |]. cbn [number List.length].
  replace (Z.of_nat (S (List.length l))) with (Z.of_nat (List.length l) + 1) by lia.
  rewrite pow2_S by lia. destruct b; lia.
Qed.

Lemma bits_number : forall l, bits_of (List.length l) (number l) = l.
Proof.
  induction l as [| b l IH]; [reflexivity |]. cbn [number List.length bits_of].
  pose proof (number_range l) as Hr. set (k := Z.of_nat (List.length l)) in *.
  assert (Hk : 0 <= k) by (unfold k; lia). pose proof (pow2_gt0 k Hk).
  f_equal.
  - rewrite Z.testbit_eqb by lia. rewrite div_small_mul by lia. destruct b; reflexivity.
  - transitivity (bits_of (List.length l) (number l)); [| exact IH].
    rewrite <- (bits_of_mod (List.length l) (List.length l)) by lia. fold k.
    rewrite mod_small_mul by lia. rewrite Z.mod_small by lia. reflexivity.
Qed.

Definition width (prev : Z) : nat := if prev =? 255 then 7 else 8.

Lemma width_cases : forall p, (p = 255 /\ width p = 7%nat) \/ (p <> 255 /\ width p = 8%nat).
Proof. intros p. unfold width. destruct (Z.eqb_spec p 255); auto. Qed.

Lemma unstuff_cons : forall p x r, unstuff p (x :: r) = bits_of (width p) x ++ unstuff x r.
Proof. reflexivity. Qed.

Lemma last_app1 : forall {A} (l : list A) x d, last (l ++ [x]) d = x.
Proof. intros. apply last_last. Qed.

Lemma unstuff_app : forall a p b, unstuff p (a ++ b) = unstuff p a ++ unstuff (last a p) b.
Proof.
  induction a as [| x a IH]; intros p b; [reflexivity |].
  cbn [app]. rewrite !unstuff_cons, IH, <- app_assoc. do 2 f_equal.
  destruct a; [reflexivity |]. f_equal. cbn [last]. clear. revert z. induction a; intros; cbn [last]; [reflexivity |].
  destruct a0; [reflexivity | apply (IHa z0)].
Qed.

(** ** Writer *)

(** [good w bs]: no byte was lost, and the bits written so far are [bs]. *)
Definition good (w : bio_w) (bs : list bool) : Prop :=
  exists prev cur,
    w_buf w = prev * 256 + cur /\ 0 <= prev < 256 /\ 0 <= cur < 2 ^ Z.of_nat (width prev) /\
    0 <= w_ct w <= Z.of_nat (width prev) /\ cur mod 2 ^ w_ct w = 0 /\
    prev = last (rev (w_out w)) 0 /\
    Forall byte_range (w_out w) /\
    bs = unstuff 0 (rev (w_out w)) ++ bits_of (width prev - Z.to_nat (w_ct w)) (cur / 2 ^ w_ct w) /\
    (forall a b x y, rev (w_out w) = a ++ x :: y :: b -> x = 255 -> y < 128).

Lemma good_init : forall len, good (init_enc len) [].
Proof.
  intros len. exists 0, 0. cbn. repeat split; try lia; try constructor.
  intros a b x y H. destruct a; discriminate.
Qed.

Lemma shifted : forall prev cur, 0 <= prev < 256 -> 0 <= cur < 256 ->
  Z.land (Z.shiftl (prev * 256 + cur) 8) 65535 = cur * 256.
Proof.
  intros. change 65535 with (2 ^ 16 - 1). rewrite land_ones_mod by lia. rewrite shl_mul by lia.
  change (2 ^ 16) with 65536. change (2 ^ 8) with 256. lia.
Qed.

Lemma width_256 : forall p c, 0 <= c < 2 ^ Z.of_nat (width p) -> 0 <= c < 256.
Proof. intros p c. destruct (width_cases p) as [[_ ->] | [_ ->]]; cbn; lia. Qed.

Lemma byteout_good : forall w bs r, good w bs -> w_ct w = 0 -> w_room w = S r ->
  good (fst (byteout w)) bs /\ w_ct (fst (byteout w)) = Z.of_nat (width (last (rev (w_out (fst (byteout w)))) 0))
  /\ snd (byteout w) = true.
Proof.
  intros w bs r (prev & cur & Hb & Hp & Hc & Hct & Hm & Hl & Hf & Hbs & Hmk) H0 Hr.
  pose proof (width_256 _ _ Hc) as Hc8.
  unfold byteout. rewrite Hr, Hb, shifted by assumption. cbn [fst snd w_out w_ct].
  assert (Hx : Z.land (Z.shiftr (cur * 256) 8) 255 = cur).
  { change 255 with (2 ^ 8 - 1). rewrite land_ones_mod, shr_div by lia. change (2 ^ 8) with 256. lia. }
  rewrite Hx. cbn [rev]. rewrite last_app1. split; [| split; [| reflexivity]].
  2: { unfold width. destruct (Z.eqb_spec (cur * 256) 65280), (Z.eqb_spec cur 255); lia. }
  exists cur, 0. cbn [w_buf w_ct w_out rev]. rewrite last_app1.
  repeat split; try lia.
  - destruct (Z.eqb_spec (cur * 256) 65280); lia.
  - unfold width. destruct (Z.eqb_spec (cur * 256) 65280), (Z.eqb_spec cur 255); lia.
  - constructor; [exact Hc8 | assumption].
  - rewrite Hbs, unstuff_app, <- app_assoc. f_equal. rewrite <- Hl, unstuff_cons. cbn [unstuff].
    rewrite H0. change (Z.to_nat 0) with 0%nat. rewrite Nat.sub_0_r. change (2 ^ 0) with 1.
    rewrite Z.div_1_r, <- !app_assoc. symmetry.
    assert (E : (width cur - Z.to_nat (if (cur * 256 =? 65280)%Z then 7%Z else 8%Z))%nat = 0%nat).
    { unfold width. destruct (Z.eqb_spec (cur * 256) 65280), (Z.eqb_spec cur 255); lia. }
    rewrite E. cbn [bits_of app]. apply app_nil_r.
  - intros a b x y E Hx255.
    destruct b as [| b0 b'] using rev_ind.
    + replace (a ++ [x; y]) with ((a ++ [x]) ++ [y]) in E by (rewrite <- app_assoc; reflexivity).
      apply app_inj_tail in E. destruct E as [E1 E2]. subst y.
      assert (prev = 255) by (rewrite Hl, E1, last_app1; assumption).
      unfold width in Hc. destruct (Z.eqb_spec prev 255); [cbn in Hc; lia | contradiction].
    + replace (a ++ x :: y :: b' ++ [b0]) with ((a ++ x :: y :: b') ++ [b0]) in E
        by (rewrite <- app_assoc; reflexivity).
      apply app_inj_tail in E. destruct E as [E1 _]. eapply Hmk; eassumption.
Qed.

Lemma put_low : forall w bs bit, good w bs -> 0 < w_ct w ->
  good (mkW (w_out w) (w_room w) (Z.lor (w_buf w) (Z.shiftl (if bit : bool then 1 else 0) (w_ct w - 1))) (w_ct w - 1))
       (bs ++ [bit]).
Proof.
  intros w bs bit (prev & cur & Hb & Hp & Hc & Hct & Hm & Hl & Hf & Hbs & Hmk) H0.
  set (ct := w_ct w) in *. set (b := if bit : bool then 1 else 0).
  assert (Hb01 : 0 <= b <= 1) by (unfold b; destruct bit; lia).
  pose proof (pow2_gt0 (ct - 1) ltac:(lia)) as P1.
  assert (P2 : 2 ^ ct = 2 * 2 ^ (ct - 1)).
  { replace ct with ((ct - 1) + 1) at 1 by lia. apply pow2_S. lia. }
  assert (HW : Z.of_nat (width prev) <= 8) by (destruct (width_cases prev) as [[_ ->] | [_ ->]]; lia).
  assert (Hcd : cur = 2 ^ ct * (cur / 2 ^ ct)) by (pose proof (Z.div_mod cur (2 ^ ct)); lia).
  assert (E256 : 256 = 2 ^ ct * 2 ^ (8 - ct)).
  { rewrite <- Z.pow_add_r by lia. replace (ct + (8 - ct)) with 8 by lia. reflexivity. }
  assert (Hlor : Z.lor (w_buf w) (Z.shiftl b (ct - 1)) = prev * 256 + (cur + b * 2 ^ (ct - 1))).
  { rewrite shl_mul by lia. rewrite (lor_add_mod _ _ ct).
    - rewrite Hb. lia.
    - lia.
    - nia.
    - rewrite Hb, Hcd, E256.
      replace (prev * (2 ^ ct * 2 ^ (8 - ct)) + 2 ^ ct * (cur / 2 ^ ct))
        with ((prev * 2 ^ (8 - ct) + cur / 2 ^ ct) * 2 ^ ct) by ring.
      apply Z.mod_mul. lia. }
  rewrite Hlor. exists prev, (cur + b * 2 ^ (ct - 1)). cbn [w_buf w_ct w_out].
  set (q := cur / 2 ^ ct) in *.
  assert (Hdiv : (cur + b * 2 ^ (ct - 1)) / 2 ^ (ct - 1) = 2 * q + b).
  { rewrite Z.div_add by lia. f_equal. rewrite Hcd, P2.
    replace (2 * 2 ^ (ct - 1) * q) with (2 * q * 2 ^ (ct - 1)) by ring. apply Z.div_mul. lia. }
  assert (HWs : 2 ^ Z.of_nat (width prev) = 2 ^ ct * 2 ^ (Z.of_nat (width prev) - ct)).
  { rewrite <- Z.pow_add_r by lia. f_equal. lia. }
  pose proof (pow2_gt0 (Z.of_nat (width prev) - ct) ltac:(lia)) as P3.
  repeat split; try lia; try assumption.
  - assert (q + 1 <= 2 ^ (Z.of_nat (width prev) - ct)) by nia. nia.
  - rewrite Hdiv, Hbs, <- app_assoc. f_equal.
    replace (width prev - Z.to_nat (ct - 1))%nat with ((width prev - Z.to_nat ct) + 1)%nat by lia.
    rewrite bits_of_split. f_equal.
    + f_equal. change (2 ^ Z.of_nat 1) with 2. lia.
    + cbn [bits_of]. change (Z.of_nat 0) with 0. rewrite Z.bit0_odd.
      replace (2 * q + b) with (b + 2 * q) by lia. rewrite Z.odd_add_mul_2. unfold b. destruct bit; reflexivity.
Qed.

(** Whatever happens, either nothing was lost or the buffer is full. *)
Definition started (w : bio_w) (bs : list bool) : Prop :=
  bs <> [] -> w_ct w < Z.of_nat (width (last (rev (w_out w)) 0)).

Definition winv (w : bio_w) (bs : list bool) : Prop :=
  (good w bs /\ started w bs) \/ w_room w = O.

Lemma byteout_room : forall w, w_room w = O -> w_room (fst (byteout w)) = O /\ snd (byteout w) = false /\
  w_out (fst (byteout w)) = w_out w.
Proof. intros w H. unfold byteout. rewrite H. auto. Qed.

Lemma putbit_inv : forall w bs bit, winv w bs -> winv (putbit w (if bit : bool then 1 else 0)) (bs ++ [bit]).
Proof.
  intros w bs bit [[H Hst] | H].
  - unfold putbit. destruct (Z.eqb_spec (w_ct w) 0) as [E | E].
    + destruct (w_room w) as [| r] eqn:Er.
      * right. cbn [w_room]. apply byteout_room. assumption.
      * left. destruct (byteout_good w bs r H E Er) as (G & Gc & _).
        assert (Hpos : 0 < w_ct (fst (byteout w))).
        { rewrite Gc. destruct (width_cases (last (rev (w_out (fst (byteout w)))) 0)) as [[_ ->] | [_ ->]]; lia. }
        split; [apply put_low; assumption |].
        intros _. cbn [w_ct w_out]. rewrite Gc. lia.
    + left. pose proof H as (prev & cur & _ & _ & _ & Hct & _ & Hl & _).
      split; [apply put_low; [assumption | lia] |].
      intros _. cbn [w_ct w_out]. rewrite <- Hl. lia.
  - right. unfold putbit. cbn [w_room]. destruct (w_ct w =? 0); [apply byteout_room; assumption | assumption].
Qed.

Lemma putbits_inv : forall l w bs, winv w bs -> winv (putbits w l) (bs ++ l).
Proof.
  induction l as [| b l IH]; intros w bs H; [rewrite app_nil_r; exact H |].
  cbn [putbits fold_left]. change (fold_left _ l ?x) with (putbits x l).
  replace (bs ++ b :: l) with ((bs ++ [b]) ++ l) by (rewrite <- app_assoc; reflexivity).
  apply IH. apply putbit_inv. assumption.
Qed.

Lemma putbits_app : forall w a b, putbits w (a ++ b) = putbits (putbits w a) b.
Proof. intros. unfold putbits. apply fold_left_app. Qed.

Lemma write_loop_bits : forall n w v, write_loop n w v = putbits w (bits_of n v).
Proof.
  induction n; intros w v; [reflexivity |]. cbn [write_loop bits_of]. rewrite IHn.
  rewrite bit_value by lia.
  change (putbits w (Z.testbit v (Z.of_nat n) :: bits_of n v)) with
    (putbits (putbit w (if Z.testbit v (Z.of_nat n) then 1 else 0)) (bits_of n v)).
  destruct (Z.testbit v (Z.of_nat n)); reflexivity.
Qed.

Lemma write_fields_bits : forall l w w', write_fields w l = Some w' -> w' = putbits w (field_bits l).
Proof.
  induction l as [| [v n] l IH]; intros w w' H; cbn [write_fields] in H; [inversion H; reflexivity |].
  unfold bio_write in H. destruct ((0 <? n) && (n <=? 32)) eqn:E; [| discriminate].
  apply IH in H. rewrite H, write_loop_bits. unfold field_bits. cbn [flat_map fst snd]. rewrite putbits_app.
  reflexivity.
Qed.

Lemma write_fields_total : forall l w, Forall (fun f => 1 <= snd f <= 32) l -> exists w', write_fields w l = Some w'.
Proof.
  induction l as [| [v n] l IH]; intros w H; [eexists; reflexivity |]. inversion H; subst.
  cbn [write_fields]. unfold bio_write. cbn [snd] in *.
  replace ((0 <? n) && (n <=? 32)) with true by (symmetry; apply andb_true_intro; rewrite Z.ltb_lt, Z.leb_le; lia).
  apply IH. assumption.
Qed.

(** ** Flush *)

Lemma good_flush : forall w bs w', good w bs -> started w bs -> flush w = (w', true) ->
  exists k, unstuff 0 (rev (w_out w')) = bs ++ zeros k /\
    Forall byte_range (w_out w') /\ marker_free (rev (w_out w')) /\
    (bs <> [] -> exists a x, rev (w_out w') = a ++ (if x =? 255 then [x; 0] else [x]) /\
        (List.length (unstuff 0 a) < List.length bs <= List.length (unstuff 0 (a ++ [x])))%nat).
Proof.
  intros w bs w' (prev & cur & Hb & Hp & Hc & Hct & Hm & Hl & Hf & Hbs & Hmk) Hst Hfl.
  pose proof (width_256 _ _ Hc) as Hc8.
  unfold flush, byteout in Hfl. rewrite Hb, shifted in Hfl by assumption.
  destruct (w_room w) as [| r] eqn:Er; [discriminate |].
  assert (Hx : Z.land (Z.shiftr (cur * 256) 8) 255 = cur).
  { change 255 with (2 ^ 8 - 1). rewrite land_ones_mod, shr_div by lia. change (2 ^ 8) with 256. lia. }
  rewrite Hx in Hfl. cbn [w_ct w_buf w_room w_out] in Hfl.
  set (ct := w_ct w) in *.
  assert (HW : (Z.to_nat ct <= width prev)%nat) by lia.
  assert (Hbits : bits_of (width prev) cur = bits_of (width prev - Z.to_nat ct) (cur / 2 ^ ct) ++ zeros (Z.to_nat ct)).
  { replace (width prev) with ((width prev - Z.to_nat ct) + Z.to_nat ct)%nat at 1 by lia.
    rewrite bits_of_split. rewrite Z2Nat.id by lia. f_equal. apply bits_of_mod0.
    rewrite Z2Nat.id by lia. exact Hm. }
  assert (Hun : unstuff 0 (rev (w_out w) ++ [cur]) = bs ++ zeros (Z.to_nat ct)).
  { rewrite unstuff_app, <- Hl, unstuff_cons. cbn [unstuff]. rewrite app_nil_r, Hbits, Hbs, <- app_assoc. reflexivity. }
  assert (Hmf : forall tl, (cur = 255 -> match tl with [] => False | y :: _ => y < 128 end) -> marker_free tl ->
     marker_free (rev (w_out w) ++ cur :: tl)).
  { intros tl Htl Hmt.
    assert (G : forall a, (forall p b x y, a = p ++ x :: y :: b -> x = 255 -> y < 128) ->
       (last a 0 = 255 -> cur < 128) -> marker_free (a ++ cur :: tl)).
    { induction a as [| a0 a IHa]; intros Ha Hlast; cbn [app marker_free].
      - split; assumption.
      - split.
        + intros ->. destruct a as [| a1 a]; cbn [app]; [apply Hlast; reflexivity |].
          apply (Ha [] a 255 a1); reflexivity.
        + apply IHa.
          * intros p b x y E Hx255. apply (Ha (a0 :: p) b x y); [rewrite E; reflexivity | assumption].
          * intros E. destruct a; [discriminate E | apply Hlast; exact E]. }
    apply G; [exact Hmk |]. rewrite <- Hl. intros ->. unfold width in Hc. cbn in Hc. lia. }
  assert (Hbne : bs <> [] -> (List.length (unstuff 0 (rev (w_out w))) < List.length bs <=
                     List.length (unstuff 0 (rev (w_out w) ++ [cur])))%nat).
  { intros Hne. specialize (Hst Hne). rewrite <- Hl in Hst. fold ct in Hst.
    rewrite Hun, Hbs, !app_length, !bits_of_length. unfold zeros. rewrite repeat_length. lia. }
  destruct (Z.eqb_spec (cur * 256) 65280) as [E | E].
  - change (7 =? 7) with true in Hfl. cbn iota in Hfl.
    destruct r as [| r]; [discriminate |].
    assert (cur = 255) by lia. subst cur.
    change (Z.land (Z.shiftl (255 * 256) 8) 65535) with 0 in Hfl.
    change (Z.land (Z.shiftr 0 8) 255) with 0 in Hfl. injection Hfl as <-.
    assert (Hct0 : ct = 0).
    { destruct (Z.eq_dec ct 0); [assumption |]. exfalso.
      assert (E2 : 2 ^ ct = 2 * 2 ^ (ct - 1)).
      { replace ct with ((ct - 1) + 1) at 1 by lia. apply pow2_S. lia. }
      pose proof (pow2_gt0 (ct - 1) ltac:(lia)). pose proof (Z.div_mod 255 (2 ^ ct)). nia. }
    cbn [w_out rev]. rewrite <- app_assoc. cbn [app].
    exists 7%nat. split; [| split; [| split]].
    + replace (rev (w_out w) ++ [255; 0]) with ((rev (w_out w) ++ [255]) ++ [0]) by (rewrite <- app_assoc; reflexivity).
      rewrite unstuff_app, Hun, last_app1, Hct0, <- app_assoc. reflexivity.
    + repeat (constructor; [unfold byte_range; lia |]). assumption.
    + apply Hmf; [intros; lia | cbn; split; [lia | exact I]].
    + intros Hne. exists (rev (w_out w)), 255. split; [reflexivity |].
      apply Hbne. exact Hne.
  - change (8 =? 7) with false in Hfl. cbn iota in Hfl. inversion Hfl; subst w'; clear Hfl.
    cbn [w_out rev]. exists (Z.to_nat ct). split; [exact Hun |]. split; [| split].
    + constructor; [exact Hc8 | assumption].
    + apply Hmf; [intros; lia | exact I].
    + intros Hne. exists (rev (w_out w)), cur. split; [| apply Hbne; exact Hne].
      destruct (Z.eqb_spec cur 255); [lia | reflexivity].
Qed.

(** ** Capacity *)

Definition fits (len : nat) (w : bio_w) : Prop := (List.length (w_out w) + w_room w = len)%nat.

Lemma byteout_fits : forall len w, fits len w -> fits len (fst (byteout w)).
Proof. unfold fits, byteout. intros len w H. destruct (w_room w) eqn:E; cbn; lia. Qed.

Lemma putbit_fits : forall len w b, fits len w -> fits len (putbit w b).
Proof.
  unfold putbit. intros len w b H. destruct (w_ct w =? 0); [apply byteout_fits in H |]; exact H.
Qed.

Lemma putbits_fits : forall l len w, fits len w -> fits len (putbits w l).
Proof. induction l; intros len w H; [exact H |]. cbn. apply IHl. apply putbit_fits. exact H. Qed.

Lemma flush_fits : forall len w, fits len w -> fits len (fst (flush w)).
Proof.
  intros len w H. unfold flush. apply byteout_fits in H. destruct (byteout w) as [w1 []]; [| exact H].
  cbn [fst] in H. destruct (w_ct w1 =? 7); [apply byteout_fits |]; exact H.
Qed.

(** ** Reader *)

Definition at_bit (l : list bool) (n : nat) : bool := nth n l false.

(** [reads r l]: the reader will deliver the bits [l], then zeros. *)
Definition agree (l1 l2 : list bool) : Prop := forall n, at_bit l1 n = at_bit l2 n.

Definition reads (r : bio_r) (l : list bool) : Prop :=
  exists p x, r_buf r = p * 256 + x /\ 0 <= p < 256 /\ 0 <= x < 256 /\ 0 <= r_ct r <= 8 /\
    Forall byte_range (r_in r) /\
    agree l (bits_of (Z.to_nat (r_ct r)) x ++ unstuff x (r_in r)).

Lemma agree_refl : forall l, agree l l.
Proof. intros l n. reflexivity. Qed.

Lemma agree_tl : forall l1 l2, agree l1 l2 -> agree (tl l1) (tl l2).
Proof.
  intros l1 l2 H n. specialize (H (S n)). unfold at_bit in *.
  destruct l1, l2; cbn in *; try exact H; destruct n; exact H.
Qed.

Lemma agree_trans : forall a b c, agree a b -> agree b c -> agree a c.
Proof. intros a b c H1 H2 n. rewrite H1. apply H2. Qed.

Lemma agree_sym : forall a b, agree a b -> agree b a.
Proof. intros a b H n. symmetry. apply H. Qed.

Lemma at_bit_zeros : forall k n, at_bit (zeros k) n = false.
Proof. unfold at_bit, zeros. induction k; intros [| n]; cbn; auto. Qed.

Lemma agree_zeros : forall l k, agree (l ++ zeros k) l.
Proof.
  intros l k n. unfold at_bit. destruct (Nat.ltb_spec n (List.length l)).
  - apply app_nth1. assumption.
  - rewrite app_nth2 by assumption. rewrite (nth_overflow l) by assumption. apply at_bit_zeros.
Qed.

Lemma reads_init : forall bytes, Forall byte_range bytes -> reads (init_dec bytes) (unstuff 0 bytes).
Proof. intros bytes H. exists 0, 0. cbn. repeat split; try lia; try assumption. Qed.

Lemma bits_of_S : forall n v, bits_of (S n) v = Z.testbit v (Z.of_nat n) :: bits_of n v.
Proof. reflexivity. Qed.

Lemma getbit_low : forall r p x, r_buf r = p * 256 + x -> 0 <= p < 256 -> 0 <= x < 256 -> 0 < r_ct r <= 8 ->
  Z.land (Z.shiftr (r_buf r) (r_ct r - 1)) 1 = Z.b2z (Z.testbit x (r_ct r - 1)).
Proof.
  intros r p x Hb Hp Hx Hct. rewrite bit_value by lia. f_equal.
  replace x with (r_buf r mod 2 ^ 8).
  - rewrite Z.mod_pow2_bits_low by lia. reflexivity.
  - rewrite Hb. change (2 ^ 8) with 256. lia.
Qed.

Lemma bytein_reads : forall r l, reads r l -> r_ct r = 0 -> reads (fst (bytein r)) l /\ 0 < r_ct (fst (bytein r)).
Proof.
  intros r l (p & x & Hb & Hp & Hx & Hct & Hf & Ha) H0. rewrite H0 in Ha. cbn [Z.to_nat bits_of app] in Ha.
  unfold bytein. rewrite Hb, shifted by assumption.
  assert (Hw : (if x * 256 =? 65280 then 7 else 8) = Z.of_nat (width x)).
  { unfold width. destruct (Z.eqb_spec (x * 256) 65280), (Z.eqb_spec x 255); lia. }
  rewrite Hw.
  assert (Hw8 : 0 < Z.of_nat (width x) <= 8) by (destruct (width_cases x) as [[_ ->] | [_ ->]]; lia).
  destruct (r_in r) as [| y rest]; cbn [fst r_ct]; (split; [| lia]).
  - exists x, 0. cbn [r_buf r_ct r_in]. rewrite Nat2Z.id. repeat split; try lia; try constructor.
    rewrite bits_of_zero. cbn [unstuff] in *. rewrite app_nil_r.
    eapply agree_trans; [exact Ha |]. intros n. rewrite at_bit_zeros. unfold at_bit. destruct n; reflexivity.
  - inversion Hf; subst. exists x, y. cbn [r_buf r_ct r_in]. rewrite Nat2Z.id.
    unfold byte_range in *. repeat split; try lia; try assumption.
    change 256 with (2 ^ 8). rewrite lor_add by (change (2 ^ 8) with 256; lia). reflexivity.
Qed.

Lemma getbit_reads : forall r l b r', reads r l -> getbit r = (b, r') ->
  b = Z.b2z (at_bit l 0) /\ reads r' (tl l).
Proof.
  assert (G : forall r l, reads r l -> 0 < r_ct r ->
    Z.land (Z.shiftr (r_buf r) (r_ct r - 1)) 1 = Z.b2z (at_bit l 0) /\
    reads (mkR (r_in r) (r_pos r) (r_buf r) (r_ct r - 1)) (tl l)).
  { intros r l (p & x & Hb & Hp & Hx & Hct & Hf & Ha) H0.
    rewrite (getbit_low r p x) by (assumption || lia).
    assert (E : Z.to_nat (r_ct r) = S (Z.to_nat (r_ct r - 1))) by lia.
    rewrite E, bits_of_S in Ha. rewrite Z2Nat.id in Ha by lia. split.
    - rewrite (Ha 0%nat). reflexivity.
    - exists p, x. cbn [r_buf r_ct r_in]. repeat split; try lia; try assumption.
      apply agree_tl in Ha. exact Ha. }
  intros r l b r' H Hg. unfold getbit in Hg. destruct (Z.eqb_spec (r_ct r) 0) as [E | E].
  - destruct (bytein_reads r l H E) as [H1 H2]. destruct (G _ _ H1 H2) as [G1 G2].
    injection Hg as <- <-. split; assumption.
  - assert (0 < r_ct r) by (destruct H as (? & ? & ? & ? & ? & ? & _); lia).
    destruct (G r l H H0) as [G1 G2]. injection Hg as <- <-. split; assumption.
Qed.

(** The first [n] bits of the stream [l ++ zeros]. *)
Definition take (n : nat) (l : list bool) : list bool := map (at_bit l) (seq 0 n).

Lemma take_S : forall n l, take (S n) l = at_bit l 0 :: take n (tl l).
Proof.
  intros. unfold take. cbn [seq map]. f_equal. rewrite <- seq_shift, map_map. apply map_ext.
  intros k. unfold at_bit. destruct l; cbn; [destruct k |]; reflexivity.
Qed.

Lemma take_length : forall n l, List.length (take n l) = n.
Proof. intros. unfold take. rewrite map_length, seq_length. reflexivity. Qed.

Lemma take_app : forall l r, take (List.length l) (l ++ r) = l.
Proof.
  induction l; intros r; [reflexivity |]. cbn [List.length app]. rewrite take_S. cbn [tl]. rewrite IHl. reflexivity.
Qed.

Lemma skipn_tl : forall {A} n (l : list A), skipn n (tl l) = skipn (S n) l.
Proof. intros. destruct l; [rewrite !skipn_nil; reflexivity | reflexivity]. Qed.

Lemma read_loop_reads : forall n r l v w r', reads r l -> read_loop n r w = (v, r') ->
  w mod 2 ^ Z.of_nat n = 0 ->
  v = w + number (take n l) /\ reads r' (skipn n l).
Proof.
  induction n; intros r l v w r' H Hr Hm.
  - cbn in Hr. injection Hr as <- <-. cbn. split; [lia | exact H].
  - cbn [read_loop] in Hr. destruct (getbit r) as [x r1] eqn:Eg.
    destruct (getbit_reads _ _ _ _ H Eg) as [-> H1].
    pose proof (pow2_gt0 (Z.of_nat n) ltac:(lia)) as Pn.
    replace (Z.of_nat (S n)) with (Z.of_nat n + 1) in Hm by lia. rewrite pow2_S in Hm by lia.
    assert (Hb : 0 <= Z.b2z (at_bit l 0) <= 1) by (destruct (at_bit l 0); cbn; lia).
    assert (Hlor : Z.lor w (Z.shiftl (Z.b2z (at_bit l 0)) (Z.of_nat n)) = w + Z.b2z (at_bit l 0) * 2 ^ Z.of_nat n).
    { rewrite shl_mul by lia. apply (lor_add_mod _ _ (Z.of_nat n + 1)); [lia | | rewrite pow2_S by lia; assumption].
      rewrite pow2_S by lia. nia. }
    rewrite Hlor in Hr.
    assert (Hm' : (w + Z.b2z (at_bit l 0) * 2 ^ Z.of_nat n) mod 2 ^ Z.of_nat n = 0).
    { rewrite Z.mod_add by lia. apply Z.mod_divide; [lia |]. apply Z.mod_divide in Hm; [| lia].
      destruct Hm as [q ->]. exists (q * 2). ring. }
    destruct (IHn _ _ _ _ _ H1 Hr Hm') as [-> H2]. split.
    + rewrite take_S. cbn [number]. rewrite take_length. destruct (at_bit l 0); cbn [Z.b2z]; lia.
    + rewrite skipn_tl in H2. exact H2.
Qed.

Lemma bio_read_reads : forall n r l v r', reads r l -> bio_read r n = Some (v, r') ->
  v = number (take (Z.to_nat n) l) /\ reads r' (skipn (Z.to_nat n) l).
Proof.
  intros n r l v r' H Hr. unfold bio_read in Hr. destruct ((0 <? n) && (n <=? 32)); [| discriminate].
  assert (Hr' : read_loop (Z.to_nat n) r 0 = (v, r')) by congruence.
  destruct (read_loop_reads _ _ _ _ _ _ H Hr') as [E1 E2]; [apply Z.mod_0_l; pose proof (pow2_gt0 (Z.of_nat (Z.to_nat n))); lia |].
  split; [rewrite E1; reflexivity | exact E2].
Qed.

Lemma reads_agree : forall r l l', reads r l -> agree l' l -> reads r l'.
Proof.
  intros r l l' (p & x & Hb & Hp & Hx & Hct & Hf & Ha) H. exists p, x.
  repeat (split; [assumption |]). eapply agree_trans; eassumption.
Qed.

(** ** Exact position of the reader *)

(** [placed bytes n r]: [n] bits of [bytes] were read (at least one), all of
    them present, and only the bytes needed for them were taken. *)
Definition placed (bytes : list Z) (n : nat) (r : bio_r) : Prop :=
  exists done p, bytes = done ++ r_in r /\ r_pos r = Z.of_nat (List.length done) /\
    r_buf r = p * 256 + last done 0 /\ 0 <= p < 256 /\ 0 <= r_ct r /\
    List.length (unstuff 0 done) = (n + Z.to_nat (r_ct r))%nat /\
    (done = [] /\ n = 0%nat \/
     exists d x, done = d ++ [x] /\ (List.length (unstuff 0 d) < n)%nat).

Lemma placed_init : forall bytes, placed bytes 0 (init_dec bytes).
Proof.
  intros. exists [], 0. cbn. repeat split; try lia. left. auto.
Qed.

Lemma last_in : forall (l : list Z), Forall byte_range l -> 0 <= last l 0 < 256.
Proof.
  intros l H. destruct l as [| x l] using rev_ind; [cbn; lia |]. rewrite last_app1.
  apply Forall_app in H. destruct H as [_ H]. inversion H; subst. assumption.
Qed.

Lemma getbit_placed : forall bytes n r b r', Forall byte_range bytes ->
  placed bytes n r -> (n < List.length (unstuff 0 bytes))%nat -> getbit r = (b, r') ->
  placed bytes (S n) r'.
Proof.
  intros bytes n r b r' Hf (dn & p & Hby & Hpos & Hb & Hp & Hct & Hlen & Hmin) Hn Hg.
  assert (Hfd : Forall byte_range dn /\ Forall byte_range (r_in r)) by (rewrite Hby in Hf; apply Forall_app; exact Hf).
  destruct Hfd as [Hfd Hfr]. pose proof (last_in dn Hfd) as Hx. set (x := last dn 0) in *.
  unfold getbit in Hg. destruct (Z.eqb_spec (r_ct r) 0) as [E | E].
  - rewrite E in Hlen. change (Z.to_nat 0) with 0%nat in Hlen.
    unfold bytein in Hg. rewrite Hb, shifted in Hg by assumption.
    assert (Hw : (if x * 256 =? 65280 then 7 else 8) = Z.of_nat (width x)).
    { unfold width. destruct (Z.eqb_spec (x * 256) 65280), (Z.eqb_spec x 255); lia. }
    rewrite Hw in Hg. destruct (r_in r) as [| y rest] eqn:Ein.
    { rewrite app_nil_r in Hby. subst dn. lia. }
    cbn [fst r_in r_pos r_buf r_ct] in Hg. injection Hg as <- <-.
    inversion Hfr; subst. unfold byte_range in *.
    exists (dn ++ [y]), x. cbn [r_in r_pos r_buf r_ct]. rewrite last_app1.
    assert (Hw8 : 0 < Z.of_nat (width x) <= 8) by (destruct (width_cases x) as [[_ ->] | [_ ->]]; lia).
    repeat split; try lia.
    + rewrite <- app_assoc. reflexivity.
    + rewrite app_length. cbn. lia.
    + change 256 with (2 ^ 8). rewrite lor_add by (change (2 ^ 8) with 256; lia). reflexivity.
    + rewrite unstuff_app, app_length, Hlen. fold x. rewrite unstuff_cons. cbn [unstuff].
      rewrite app_nil_r, bits_of_length. lia.
    + right. exists dn, y. split; [reflexivity | lia].
  - injection Hg as <- <-. exists dn, p. cbn [r_in r_pos r_buf r_ct]. fold x.
    repeat split; try lia; try assumption.
    destruct Hmin as [[-> ->] | (d & z & -> & Hd)].
    + cbn in Hlen. lia.
    + right. exists d, z. split; [reflexivity | lia].
Qed.

Lemma read_loop_placed : forall k bytes n r w v r', Forall byte_range bytes ->
  placed bytes n r -> (n + k <= List.length (unstuff 0 bytes))%nat -> read_loop k r w = (v, r') ->
  placed bytes (n + k) r'.
Proof.
  induction k; intros bytes n r w v r' Hf Hp Hn Hr.
  - cbn in Hr. injection Hr as <- <-. rewrite Nat.add_0_r. assumption.
  - cbn [read_loop] in Hr. destruct (getbit r) as [x r1] eqn:Eg.
    replace (n + S k)%nat with (S n + k)%nat by lia.
    eapply IHk; [assumption | | lia | exact Hr]. eapply getbit_placed; [assumption | exact Hp | lia | exact Eg].
Qed.

Lemma unstuff_mono : forall a b p, (List.length (unstuff p a) <= List.length (unstuff p (a ++ b)))%nat.
Proof. intros. rewrite unstuff_app, app_length. lia. Qed.

(** After reading all the bits of a flushed header, [inalign] stops right
    after its last byte. *)
Lemma placed_inalign : forall a x rest n r, Forall byte_range (a ++ x :: rest) ->
  placed (a ++ (if x =? 255 then [x; 0] else [x]) ++ rest) n r ->
  (List.length (unstuff 0 a) < n <= List.length (unstuff 0 (a ++ [x])))%nat ->
  exists r', inalign r = (r', true) /\ r_in r' = rest /\
    r_pos r' = Z.of_nat (List.length (a ++ (if x =? 255 then [x; 0] else [x]))) /\ r_ct r' = 0.
Proof.
  intros a x rest n r Hf (dn & p & Hby & Hpos & Hb & Hp & Hct & Hlen & Hmin) Hn.
  apply Forall_app in Hf. destruct Hf as [Hfa Hf]. inversion Hf as [| ? ? Hx Hfr]; subst.
  set (tail := if x =? 255 then [x; 0] else [x]) in *.
  assert (Htail : exists t, tail = x :: t) by (unfold tail; destruct (x =? 255); eexists; reflexivity).
  assert (Hd : dn = a ++ [x]).
  { destruct Hmin as [[-> ->] | (d & z & -> & Hd)]; [lia |].
    destruct Htail as [t Ht].
    assert (Hlist : a ++ x :: (t ++ rest) = d ++ z :: r_in r).
    { rewrite Ht in Hby. cbn [app] in Hby. rewrite Hby, <- app_assoc. reflexivity. }
    destruct (Nat.lt_trichotomy (List.length d) (List.length a)) as [L | [L | L]].
    - exfalso. assert (exists e, a = (d ++ [z]) ++ e).
      { exists (skipn (List.length (d ++ [z])) a).
        rewrite <- (firstn_skipn (List.length (d ++ [z])) a) at 1. f_equal.
        assert (firstn (List.length (d ++ [z])) (a ++ x :: (t ++ rest)) = d ++ [z]).
        { rewrite Hlist. replace (d ++ z :: r_in r) with ((d ++ [z]) ++ r_in r) by (rewrite <- app_assoc; reflexivity).
          rewrite firstn_app, Nat.sub_diag, firstn_all. cbn. apply app_nil_r. }
        rewrite firstn_app in H. rewrite app_length in H at 2. cbn in H.
        replace (List.length d + 1 - List.length a)%nat with 0%nat in H by lia. cbn in H. rewrite app_nil_r in H.
        exact H. }
      destruct H as [e ->]. pose proof (unstuff_mono (d ++ [z]) e 0). lia.
    - assert (d = a).
      { apply (f_equal (firstn (List.length a))) in Hlist.
        rewrite firstn_app, Nat.sub_diag, firstn_all, firstn_O, app_nil_r in Hlist.
        rewrite <- L, firstn_app, Nat.sub_diag, firstn_all, firstn_O, app_nil_r in Hlist. congruence. }
      subst d. apply app_inv_head in Hlist. congruence.
    - exfalso. assert (exists e, d = (a ++ [x]) ++ e).
      { exists (skipn (List.length (a ++ [x])) d).
        rewrite <- (firstn_skipn (List.length (a ++ [x])) d) at 1. f_equal.
        assert (firstn (List.length (a ++ [x])) (d ++ z :: r_in r) = a ++ [x]).
        { rewrite <- Hlist. replace (a ++ x :: t ++ rest) with ((a ++ [x]) ++ t ++ rest) by (rewrite <- app_assoc; reflexivity).
          rewrite firstn_app, Nat.sub_diag, firstn_all. cbn. apply app_nil_r. }
        rewrite firstn_app in H. rewrite app_length in H at 2. cbn in H.
        replace (List.length a + 1 - List.length d)%nat with 0%nat in H by lia. cbn in H. rewrite app_nil_r in H.
        exact H. }
      destruct H as [e ->]. pose proof (unstuff_mono (a ++ [x]) e 0). lia. }
  subst dn. rewrite last_app1 in Hb. unfold byte_range in Hx.
  assert (Hr : tail = x :: tl tail /\ r_in r = tl tail ++ rest).
  { destruct Htail as [t Ht]. rewrite Ht in *. cbn [tl]. split; [reflexivity |].
    rewrite <- app_assoc in Hby. cbn [app] in Hby. apply app_inv_head in Hby. congruence. }
  destruct Hr as [_ Hr].
  assert (Hlow : Z.land (r_buf r) 255 = x).
  { change 255 with (2 ^ 8 - 1). rewrite land_ones_mod by lia. rewrite Hb. change (2 ^ 8) with 256. lia. }
  unfold inalign. rewrite Hlow. unfold tail in *. destruct (Z.eqb_spec x 255) as [Ex | Ex].
  - cbn [tl app] in Hr. unfold bytein. rewrite Hr. eexists. split; [reflexivity |].
    cbn [r_in r_pos r_ct]. rewrite Hpos, !app_length. cbn. split; [reflexivity |]. split; [lia | reflexivity].
  - cbn [tl app] in Hr. eexists. split; [reflexivity |]. cbn [r_in r_pos r_ct].
    split; [exact Hr |]. split; [exact Hpos | reflexivity].
Qed.

(** ** Round trip *)

Definition values (l : list (Z * Z)) : list Z := map (fun f => fst f mod 2 ^ snd f) l.

Lemma field_bits_cons : forall v n l, field_bits ((v, n) :: l) = bits_of (Z.to_nat n) v ++ field_bits l.
Proof. reflexivity. Qed.

Lemma read_fields_spec : forall l bytes n r tail,
  Forall (fun f => 1 <= snd f <= 32) l -> Forall byte_range bytes ->
  reads r (field_bits l ++ tail) -> placed bytes n r ->
  (n + List.length (field_bits l) <= List.length (unstuff 0 bytes))%nat ->
  exists r', read_fields r (map snd l) = Some (values l, r') /\ reads r' tail /\
    placed bytes (n + List.length (field_bits l)) r'.
Proof.
  induction l as [| [v k] l IH]; intros bytes n r tail Hw Hf Hr Hp Hn.
  - exists r. cbn. rewrite Nat.add_0_r. auto.
  - inversion Hw as [| ? ? Hk Hw']; subst. cbn [snd] in Hk. cbn [map read_fields snd].
    destruct (bio_read r k) as [[x r1] |] eqn:Eb.
    2: { unfold bio_read in Eb. replace ((0 <? k) && (k <=? 32)) with true in Eb; [discriminate |].
         symmetry. apply andb_true_intro. rewrite Z.ltb_lt, Z.leb_le. lia. }
    rewrite field_bits_cons in *. rewrite <- app_assoc in Hr. rewrite app_length, bits_of_length in Hn.
    destruct (bio_read_reads _ _ _ _ _ Hr Eb) as [Hx Hr1].
    assert (Hlen : List.length (bits_of (Z.to_nat k) v) = Z.to_nat k) by apply bits_of_length.
    rewrite <- Hlen in Hx at 1. rewrite take_app, number_bits, Z2Nat.id in Hx by lia.
    rewrite <- Hlen in Hr1 at 1. rewrite skipn_app, skipn_all, Nat.sub_diag in Hr1. cbn [skipn app] in Hr1.
    assert (Hp1 : placed bytes (n + Z.to_nat k) r1).
    { unfold bio_read in Eb. destruct ((0 <? k) && (k <=? 32)); [| discriminate].
      eapply read_loop_placed; [exact Hf | exact Hp | lia |]. injection Eb as Eb. exact Eb. }
    destruct (IH bytes _ r1 tail Hw' Hf Hr1 Hp1) as (r' & E & Hr' & Hp'); [lia |].
    rewrite E. exists r'. subst x. split; [reflexivity |]. split; [exact Hr' |].
    rewrite app_length, bits_of_length. replace (n + (Z.to_nat k + List.length (field_bits l)))%nat
      with (n + Z.to_nat k + List.length (field_bits l))%nat by lia. exact Hp'.
Qed.

Lemma field_bits_nonempty : forall l, l <> [] -> Forall (fun f => 1 <= snd f <= 32) l -> field_bits l <> [].
Proof.
  intros [| [v k] l] H Hw; [contradiction |]. inversion Hw; subst. cbn [snd] in *.
  rewrite field_bits_cons. destruct (Z.to_nat k) eqn:E; [lia |]. discriminate.
Qed.

Lemma bio_round_trip : forall len l rest w w', l <> [] -> Forall (fun f => 1 <= snd f <= 32) l ->
  Forall byte_range rest ->
  write_fields (init_enc len) l = Some w -> flush w = (w', true) ->
  exists r r', read_fields (init_dec (rev (w_out w') ++ rest)) (map snd l) = Some (values l, r) /\
    inalign r = (r', true) /\ r_in r' = rest /\ r_numbytes r' = w_numbytes w'.
Proof.
  intros len l rest w w' Hne Hw Hrest Hwr Hfl.
  apply write_fields_bits in Hwr.
  assert (Hi : winv w (field_bits l)).
  { subst w. apply (putbits_inv (field_bits l) (init_enc len) []). left. split; [apply good_init |].
    intros X. contradiction. }
  destruct Hi as [[Hg Hst] | Hroom].
  2: { exfalso. unfold flush in Hfl. destruct (byteout w) as [w1 b] eqn:Eb.
       pose proof (byteout_room w Hroom) as (_ & X & _). rewrite Eb in X. cbn in X. subst b. discriminate. }
  destruct (good_flush _ _ _ Hg Hst Hfl) as (k & Hun & Hfb & _ & Hlast).
  destruct (Hlast (field_bits_nonempty l Hne Hw)) as (a & x & Ea & Hn).
  assert (Hfb' : Forall byte_range (rev (w_out w'))) by (apply Forall_rev; assumption).
  assert (Hfall : Forall byte_range (rev (w_out w') ++ rest)) by (apply Forall_app; auto).
  assert (Hreads : reads (init_dec (rev (w_out w') ++ rest))
     (field_bits l ++ zeros k ++ unstuff (last (rev (w_out w')) 0) rest)).
  { pose proof (reads_init _ Hfall) as H. rewrite unstuff_app, Hun, <- app_assoc in H. exact H. }
  destruct (read_fields_spec l _ 0 _ _ Hw Hfall Hreads (placed_init _)) as (r & E & _ & Hp).
  { rewrite unstuff_app, Hun, !app_length. lia. }
  exists r. rewrite Ea, <- app_assoc in Hp. cbn [Nat.add] in Hp.
  assert (Hfx : Forall byte_range (a ++ x :: rest)).
  { rewrite Ea in Hfb'. apply Forall_app in Hfb'. destruct Hfb' as [F1 F2]. apply Forall_app. split; [assumption |].
    constructor; [| assumption]. destruct (x =? 255); inversion F2; assumption. }
  destruct (placed_inalign a x rest _ r Hfx Hp Hn) as (r' & E1 & E2 & E3 & _).
  exists r'. split; [exact E |]. split; [exact E1 |]. split; [exact E2 |].
  unfold r_numbytes, w_numbytes. rewrite E3, <- Ea, rev_length. reflexivity.
Qed.

(** ** Sufficient capacity *)

Definition paced (w : bio_w) (k : Z) : Prop :=
  0 <= w_ct w <= 8 /\ 7 * Z.of_nat (List.length (w_out w)) + 7 - w_ct w <= k.

Lemma putbit_paced : forall w k b, paced w k -> paced (putbit w b) (k + 1).
Proof.
  unfold paced. intros w k b [H1 H2]. unfold putbit. destruct (Z.eqb_spec (w_ct w) 0) as [E | E].
  - unfold byteout. destruct (w_room w); destruct (_ =? 65280); cbn [fst w_ct w_out List.length]; lia.
  - cbn [w_ct w_out]. lia.
Qed.

Lemma putbits_paced : forall l w k, paced w k -> paced (putbits w l) (k + Z.of_nat (List.length l)).
Proof.
  induction l; intros w k H.
  - cbn. rewrite Z.add_0_r. exact H.
  - cbn [putbits fold_left]. change (fold_left _ l ?x) with (putbits x l).
    replace (k + Z.of_nat (List.length (a :: l))) with (k + 1 + Z.of_nat (List.length l)) by (cbn [List.length]; lia).
    apply IHl. apply putbit_paced. exact H.
Qed.

Lemma flush_capacity : forall len l w, write_fields (init_enc len) l = Some w ->
  Z.of_nat (List.length (field_bits l)) + 9 <= 7 * Z.of_nat len -> exists w', flush w = (w', true).
Proof.
  intros len l w Hw Hc. apply write_fields_bits in Hw.
  assert (P : paced w (Z.of_nat (List.length (field_bits l)))).
  { subst w. apply (putbits_paced _ (init_enc len) 0). split; cbn; lia. }
  assert (F : fits len w) by (subst w; apply putbits_fits; unfold fits; cbn; lia).
  destruct P as [P1 P2]. unfold fits in F.
  assert (R : (2 <= w_room w)%nat) by lia. clear - R.
  unfold flush, byteout. destruct (w_room w) as [| [| n]]; [lia | lia |].
  destruct (_ =? 65280); cbn [w_ct w_room]; [change (7 =? 7) with true | change (8 =? 7) with false]; cbn iota; eauto.
Qed.
