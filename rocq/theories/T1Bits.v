(** Flag words bit by bit: masks, and the context tables against the standard's. *)

From Coq Require Import ZArith List Bool Lia.
From Verif Require Import Ints Mem MqModel T1Luts T1Model T1Spec.
Import ListNotations.
Local Open Scope Z_scope.

(** The mask with the given bits. *)
Definition mk (l : list Z) : Z := fold_right (fun b m => Z.lor (bit b) m) 0 l.

Lemma testbit_bit : forall a b, 0 <= a -> Z.testbit (bit a) b = (a =? b).
Proof.
  intros a b Ha. unfold bit. rewrite Z.shiftl_1_l. destruct (Z.eqb_spec a b) as [-> | H].
  - apply Z.pow2_bits_true. lia.
  - apply Z.pow2_bits_false. lia.
Qed.

Lemma land_bit : forall g a, 0 <= a -> Z.land g (bit a) = if Z.testbit g a then bit a else 0.
Proof.
  intros g a Ha. apply Z.bits_inj'. intros i Hi. rewrite Z.land_spec, testbit_bit by lia.
  destruct (Z.testbit g a) eqn:E; [rewrite testbit_bit by lia | rewrite Z.bits_0];
    destruct (Z.eqb_spec a i) as [<- | H]; rewrite ?E, ?andb_true_r, ?andb_false_r; reflexivity.
Qed.

Lemma land_mk : forall g l, Forall (fun b => 0 <= b) l -> Z.land g (mk l) = mk (filter (Z.testbit g) l).
Proof.
  intros g l H. induction H as [| b l Hb H IH]; cbn [mk fold_right filter].
  - apply Z.land_0_r.
  - rewrite Z.land_lor_distr_r, land_bit by exact Hb. fold (mk l). rewrite IH.
    destruct (Z.testbit g b); [reflexivity | apply Z.lor_0_l].
Qed.

Lemma testbit_mk : forall l i, Forall (fun b => 0 <= b) l -> Z.testbit (mk l) i = existsb (fun b => b =? i) l.
Proof.
  intros l i H. induction H as [| b l Hb H IH]; cbn [mk fold_right existsb].
  - apply Z.bits_0.
  - rewrite Z.lor_spec, testbit_bit by exact Hb. fold (mk l). rewrite IH. reflexivity.
Qed.

Lemma mk_zero : forall l, Forall (fun b => 0 <= b) l -> (mk l =? 0) = match l with [] => true | _ => false end.
Proof.
  intros l H. destruct H as [| b l Hb H]; [reflexivity |]. apply Z.eqb_neq. intros E.
  assert (T : Z.testbit (mk (b :: l)) b = true)
    by (rewrite testbit_mk by (constructor; assumption); cbn [existsb]; rewrite Z.eqb_refl; reflexivity).
  rewrite E, Z.bits_0 in T. discriminate.
Qed.

Lemma filter_pos : forall f l, Forall (fun b => 0 <= b) l -> Forall (fun b => 0 <= b) (filter f l).
Proof. intros f l H. induction H; cbn [filter]; [constructor |]. destruct (f x); [constructor |]; assumption. Qed.

Lemma land_mk_zero : forall g l, Forall (fun b => 0 <= b) l -> (Z.land g (mk l) =? 0) = negb (existsb (Z.testbit g) l).
Proof.
  intros g l H. rewrite land_mk, mk_zero by (try apply filter_pos; exact H).
  clear H. induction l as [| b l IH]; cbn [filter existsb]; [reflexivity |].
  destruct (Z.testbit g b); [reflexivity | exact IH].
Qed.

Lemma land_mk_all : forall g l, Forall (fun b => 0 <= b) l -> (Z.land g (mk l) =? mk l) = forallb (Z.testbit g) l.
Proof.
  intros g l H. destruct (forallb (Z.testbit g) l) eqn:E.
  - apply Z.eqb_eq. rewrite land_mk by exact H. f_equal. clear H. induction l; [reflexivity |].
    cbn [forallb filter] in *. apply andb_true_iff in E. destruct E as [E1 E2]. rewrite E1. f_equal. apply IHl, E2.
  - apply Z.eqb_neq. intros C.
    assert (N : exists b, In b l /\ Z.testbit g b = false).
    { clear - E. induction l as [| b l IH]; [discriminate |]. cbn [forallb] in E. destruct (Z.testbit g b) eqn:T.
      - destruct (IH E) as (b' & I & T'). exists b'. split; [right |]; assumption.
      - exists b. split; [left; reflexivity | exact T]. }
    destruct N as (b & I & T). apply (f_equal (fun z => Z.testbit z b)) in C.
    rewrite Z.land_spec, T, testbit_mk in C by exact H. cbn [andb] in C. symmetry in C.
    assert (X : existsb (fun i => i =? b) l = true) by (apply existsb_exists; exists b; split; [exact I | apply Z.eqb_refl]).
    congruence.
Qed.

(** Four cases for a row of a stripe. *)
Lemma row4 : forall ci, 0 <= ci < 4 -> ci = 0 \/ ci = 1 \/ ci = 2 \/ ci = 3.
Proof. lia. Qed.

Ltac pos_list := repeat (constructor; [lia |]); constructor.

Lemma quiet_bits : forall f ci, 0 <= ci < 4 ->
  quiet f ci = negb (Z.testbit f (4 + 3 * ci)) && negb (Z.testbit f (21 + 3 * ci)).
Proof.
  intros f ci H. unfold quiet.
  replace (shl (Z.lor T1_SIGMA_THIS T1_PI_THIS) (3 * ci)) with (mk [4 + 3 * ci; 21 + 3 * ci])
    by (destruct (row4 ci H) as [-> | [-> | [-> | ->]]]; vm_compute; reflexivity).
  rewrite land_mk_zero by pos_list. cbn [existsb]. rewrite orb_false_r, negb_orb. reflexivity.
Qed.

Lemma near_bits : forall f ci, 0 <= ci < 4 ->
  near f ci = existsb (Z.testbit f) (map (fun b => b + 3 * ci) [0; 1; 2; 3; 5; 6; 7; 8]).
Proof.
  intros f ci H. unfold near.
  replace (shl T1_SIGMA_NEIGHBOURS (3 * ci)) with (mk (map (fun b => b + 3 * ci) [0; 1; 2; 3; 5; 6; 7; 8]))
    by (destruct (row4 ci H) as [-> | [-> | [-> | ->]]]; vm_compute; reflexivity).
  rewrite land_mk_zero by (cbn [map]; pos_list). apply negb_involutive.
Qed.

Lemma to_refine_bits : forall f ci, 0 <= ci < 4 ->
  to_refine f ci = Z.testbit f (4 + 3 * ci) && negb (Z.testbit f (21 + 3 * ci)).
Proof.
  intros f ci H. unfold to_refine.
  replace (shl (Z.lor T1_SIGMA_THIS T1_PI_THIS) (3 * ci)) with (mk [4 + 3 * ci; 21 + 3 * ci])
    by (destruct (row4 ci H) as [-> | [-> | [-> | ->]]]; vm_compute; reflexivity).
  rewrite land_mk by pos_list. cbn [filter].
  destruct (Z.testbit f (4 + 3 * ci)), (Z.testbit f (21 + 3 * ci));
    destruct (row4 ci H) as [-> | [-> | [-> | ->]]]; vm_compute; reflexivity.
Qed.

Lemma sigma_column_bits : forall f, (Z.land f T1_SIGMA_COLUMN =? 0) = negb (existsb (Z.testbit f) [4; 7; 10; 13]).
Proof. intros f. change T1_SIGMA_COLUMN with (mk [4; 7; 10; 13]). apply land_mk_zero. pos_list. Qed.

Lemma pi_all_bits : forall f, (Z.land f T1_PI_ALL =? T1_PI_ALL) = forallb (Z.testbit f) [21; 24; 27; 30].
Proof. intros f. change T1_PI_ALL with (mk [21; 24; 27; 30]). apply land_mk_all. pos_list. Qed.

Lemma check_bits : forall f, (Z.land f (Z.lor T1_SIGMA_COLUMN T1_PI_ALL) =? Z.lor T1_SIGMA_COLUMN T1_PI_ALL)
  = forallb (Z.testbit f) [4; 7; 10; 13; 21; 24; 27; 30].
Proof. intros f. change (Z.lor T1_SIGMA_COLUMN T1_PI_ALL) with (mk [4; 7; 10; 13; 21; 24; 27; 30]). apply land_mk_all. pos_list. Qed.

(** A word is zero when its 32 bits are. *)
Lemma word_zero : forall f, 0 <= f < 2 ^ 32 -> (f =? 0) = true <-> (forall b, 0 <= b < 32 -> Z.testbit f b = false).
Proof.
  intros f Hf. rewrite Z.eqb_eq. split; [intros -> b _; apply Z.bits_0 |].
  intros H. apply Z.bits_inj'. intros i Hi. rewrite Z.bits_0. destruct (Z_lt_ge_dec i 32).
  - apply H. lia.
  - destruct (Z.eq_dec f 0) as [-> | Hn]; [apply Z.bits_0 |]. apply Z.bits_above_log2; [lia |].
    apply Z.lt_le_trans with 32; [| lia]. apply Z.log2_lt_pow2; lia.
Qed.

Lemma word_range : forall f, 0 <= f -> (forall b, 32 <= b -> Z.testbit f b = false) -> f < 2 ^ 32.
Proof.
  intros f Hf H. destruct (Z_lt_ge_dec f (2 ^ 32)); [assumption | exfalso].
  assert (L : 32 <= Z.log2 f) by (apply Z.log2_le_pow2; lia).
  specialize (H (Z.log2 f) L). rewrite Z.bit_log2 in H by lia. discriminate.
Qed.

Lemma word_high : forall f b, 0 <= f < 2 ^ 32 -> 32 <= b -> Z.testbit f b = false.
Proof.
  intros f b Hf Hb. destruct (Z.eq_dec f 0) as [-> | Hn]; [apply Z.bits_0 |]. apply Z.bits_above_log2; [lia |].
  apply Z.lt_le_trans with 32; [| lia]. apply Z.log2_lt_pow2; lia.
Qed.

(** ** Contexts *)

Lemma zc_bits : forall orient g, 0 <= orient < 4 ->
  getctxno_zc orient g =
  zero_context orient (count [Z.testbit g 3; Z.testbit g 5]) (count [Z.testbit g 1; Z.testbit g 7])
    (count [Z.testbit g 0; Z.testbit g 2; Z.testbit g 6; Z.testbit g 8]).
Proof.
  intros orient g H. unfold getctxno_zc. change T1_SIGMA_NEIGHBOURS with (mk [0; 1; 2; 3; 5; 6; 7; 8]).
  rewrite land_mk by pos_list. cbn [filter].
  destruct (Z.testbit g 0), (Z.testbit g 1), (Z.testbit g 2), (Z.testbit g 3), (Z.testbit g 5), (Z.testbit g 6),
    (Z.testbit g 7), (Z.testbit g 8);
    destruct (row4 orient H) as [-> | [-> | [-> | ->]]]; vm_compute; reflexivity.
Qed.

Lemma mag_bits : forall g,
  getctxno_mag g = if Z.testbit g 20 then 16 else if existsb (Z.testbit g) [0; 1; 2; 3; 5; 6; 7; 8] then 15 else 14.
Proof.
  intros g. unfold getctxno_mag. change T1_MU_THIS with (mk [20]).
  change T1_SIGMA_NEIGHBOURS with (mk [0; 1; 2; 3; 5; 6; 7; 8]). rewrite !land_mk_zero, !negb_involutive by pos_list.
  cbn [existsb]. rewrite orb_false_r. reflexivity.
Qed.

Definition contrib (sig neg : bool) : Z := if sig then (if neg then -1 else 1) else 0.

(** The index for sign coding: signs and significance of the west, north, east
    and south neighbours. *)
Definition sc_word (w wn n nn e en s sn : bool) : Z :=
  mk (map fst (filter snd [(0, wn); (1, n); (2, en); (3, w); (4, nn); (5, e); (6, sn); (7, s)])).

Lemma sc_word_ok : forall w wn n nn e en s sn : bool,
  Z.lor (Z.lor (Z.lor (Z.lor (mk (map fst (filter snd [(1, n); (3, w); (5, e); (7, s)]))) (if wn then bit 0 else 0))
    (if en then bit 2 else 0)) (if nn then bit 4 else 0)) (if sn then bit 6 else 0) = sc_word w wn n nn e en s sn.
Proof. intros [|] [|] [|] [|] [|] [|] [|] [|]; vm_compute; reflexivity. Qed.

Lemma filter_map_fst : forall (f : Z -> bool) (l : list Z), filter f l = map fst (filter snd (map (fun b => (b, f b)) l)).
Proof. intros f l. induction l as [| b l IH]; [reflexivity |]. cbn [filter map snd]. destruct (f b); cbn [map fst]; rewrite IH; reflexivity. Qed.

Lemma sc_bits : forall f pf nf ci, 0 <= ci < 4 ->
  sc_index f pf nf ci =
  sc_word (Z.testbit f (3 + 3 * ci)) (Z.testbit pf (19 + 3 * ci))
          (Z.testbit f (1 + 3 * ci)) (Z.testbit f (if ci =? 0 then 18 else 16 + 3 * ci))
          (Z.testbit f (5 + 3 * ci)) (Z.testbit nf (19 + 3 * ci))
          (Z.testbit f (7 + 3 * ci)) (Z.testbit f (22 + 3 * ci)).
Proof.
  intros f pf nf ci H. unfold sc_index, T1_CHI_0_I, T1_CHI_1_I, T1_CHI_2_I. cbv zeta.
  change (Z.lor (Z.lor (bit 1) (bit 3)) (Z.lor (bit 5) (bit 7))) with (mk [1; 3; 5; 7]).
  rewrite land_mk by pos_list. rewrite filter_map_fst. cbn [map]. rewrite !land_bit by lia. rewrite !Z.shiftr_spec by lia.
  rewrite <- sc_word_ok.
  assert (E : (if ci =? 0 then Z.testbit f (4 + (18 - 4)) else Z.testbit f (4 + (19 - 4 + 3 * (ci - 1))))
              = Z.testbit f (if ci =? 0 then 18 else 16 + 3 * ci)) by (destruct (ci =? 0); f_equal; lia).
  rewrite <- E. clear E.
  replace (0 + (19 + 3 * ci)) with (19 + 3 * ci) by lia. replace (2 + (19 - 2 + 3 * ci)) with (19 + 3 * ci) by lia.
  replace (6 + (22 - 6 + 3 * ci)) with (22 + 3 * ci) by lia.
  destruct (ci =? 0); reflexivity.
Qed.

Lemma sc_tables : forall w wn n nn e en s sn,
  let lu := sc_word w (w && wn) n (n && nn) e (e && en) s (s && sn) in
  (getctxno_sc lu, getspb lu) =
  sign_table (clamp1 (contrib w wn + contrib e en)) (clamp1 (contrib n nn + contrib s sn)).
Proof. intros [|] [|] [|] [|] [|] [|] [|] [|]; vm_compute; reflexivity. Qed.
