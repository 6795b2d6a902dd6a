(** Proof part of C74: pairs of quads, lines of quads and the block. *)

From Coq Require Import ZArith List Bool Lia.
From Verif Require Import Ints HtModel HtSpec HtBits HtForward HtBackward HtUvlcProps HtLuts HtLutsProps HtCupModel HtCupSpec HtCupVlc HtCupSamples HtCupPair.
Import ListNotations.
Local Open Scope Z_scope.

(** ** Reading VLC *)

Lemma number_low : forall k n V, (k <= n)%nat -> number (firstn n V) mod 2 ^ Z.of_nat k = number (firstn k V).
Proof.
  intros k n V K. rewrite <- (Z.land_ones _ (Z.of_nat k)) by lia. replace (Z.ones (Z.of_nat k)) with (Z.shiftl 1 (Z.of_nat k) - 1) by (unfold Z.ones; lia).
  rewrite number_mask, firstn_firstn, Nat.min_l by exact K. reflexivity.
Qed.
Lemma bholds_long : forall buf v r V, bholds buf v r V -> v_bits v <= Z.of_nat (length V).
Proof. intros buf v r V (_ & (_ & pre & -> & L & _) & _). rewrite app_length. lia. Qed.
Lemma fetch_all : forall buf v n V, Forall byte buf -> Vok buf v (8 + n) V ->
  exists w v' r, rev_fetch buf v = Some (w, v') /\ bholds buf v' r V /\ (n <= length r)%nat /\ 32 <= v_bits v' /\ forall k, (k <= 32)%nat -> w mod 2 ^ Z.of_nat k = number (firstn k V).
Proof.
  intros buf v n V B (r & H & L). destruct (rev_fetch_ok buf v r V B H ltac:(lia)) as (v' & r' & E & H' & L' & Bi). exists (number (firstn 32 V)), v', r'.
  split; [exact E |]. split; [exact H' |]. split; [lia |]. split; [exact Bi |]. intros k K. apply number_low, K.
Qed.
Lemma advance_all : forall buf v r V n, bholds buf v r V -> 0 <= n <= v_bits v ->
  exists w v', rev_advance v n = Some (w, v') /\ bholds buf v' r (skipn (Z.to_nat n) V) /\ v_bits v' = v_bits v - n /\ 0 <= w < 2 ^ 32 /\
    forall k, (k <= 32)%nat -> Z.of_nat k <= v_bits v - n -> w mod 2 ^ Z.of_nat k = number (firstn k (skipn (Z.to_nat n) V)).
Proof.
  intros buf v r V n H N. destruct (rev_advance_ok buf v r V n 0 H ltac:(lia) ltac:(lia) ltac:(lia)) as (w & v' & E & H' & Bi & _). exists w, v'.
  split; [exact E |]. split; [exact H' |]. split; [exact Bi |]. split.
  - unfold rev_advance in E. destruct (v_bits v <? n); [discriminate |]. cbv zeta in E. injection E as <- _. apply u32_range.
  - intros k K1 K2. destruct (rev_advance_ok buf v r V n (Z.of_nat k) H ltac:(lia) ltac:(lia) ltac:(lia)) as (w' & v'' & E' & _ & _ & W). rewrite E in E'. injection E' as <- _. rewrite W, Nat2Z.id. reflexivity.
Qed.

(** ** Samples of the lines *)

Definition cells_ok (p : Z) (l : list cell) : Prop := Forall (Forall (fits p)) l.
Lemma at_ok : forall p l i n, cells_ok p l -> fits p (at_ l i n).
Proof.
  intros p l i n H. unfold at_. destruct (Nat.lt_ge_cases i (length l)) as [K | K].
  - unfold cells_ok in H. rewrite Forall_forall in H. specialize (H (nth i l []) (nth_In _ _ K)). destruct (Nat.lt_ge_cases n (length (nth i l []))) as [J | J].
    + rewrite Forall_forall in H. apply H, nth_In, J.
    + rewrite nth_overflow by exact J. exact I.
  - rewrite (nth_overflow l) by exact K. destruct n; exact I.
Qed.
Lemma before_ok : forall p l i n, cells_ok p l -> fits p (before l i n).
Proof. intros p l [| i] n H; [exact I | apply at_ok, H]. Qed.
Lemma sig_expo : forall p o, fits p o -> sig o = (0 <? expo o).
Proof. intros p [[s mu] |] F; cbn [sig expo]; [| reflexivity]. pose proof (Z.log2_nonneg (2 * mu - 1)). symmetry. apply Z.ltb_lt. lia. Qed.
Definition lstate (l : list cell) (j : nat) : Z := mark (Z.max (expo (before l j 3)) (expo (at_ l j 1))).
Definition mark_check (E : Z) : bool := (Z.shiftr (mark E) 7 =? bit (0 <? E)) && (Z.land (Z.shiftr (mark E) 5) 4 =? 4 * bit (0 <? E)).
Lemma mark_checked : forallb mark_check (upto 32) = true.
Proof. vm_compute. reflexivity. Qed.
Lemma mark_high : forall E, 0 <= E <= 31 -> Z.shiftr (mark E) 7 = bit (0 <? E) /\ Z.land (Z.shiftr (mark E) 5) 4 = 4 * bit (0 <? E).
Proof.
  intros E R. pose proof mark_checked as C. rewrite forallb_forall in C. specialize (C E (upto_in 32 E ltac:(lia))). apply andb_prop in C. rewrite !Z.eqb_eq in C. exact C.
Qed.
Lemma lstate_facts : forall p l j, cells_ok p l -> Z.shiftr (lstate l j) 7 = bit (sig (before l j 3) || sig (at_ l j 1)) /\
  Z.land (Z.shiftr (lstate l j) 5) 4 = 4 * bit (sig (before l j 3) || sig (at_ l j 1)) /\ Z.land (lstate l j) 127 = Z.max (expo (before l j 3)) (expo (at_ l j 1)).
Proof.
  intros p l j H. pose proof (before_ok p l j 3 H) as F1. pose proof (at_ok p l j 1 H) as F2. pose proof (expo_range p _ F1). pose proof (expo_range p _ F2).
  rewrite (sig_expo p _ F1), (sig_expo p _ F2). unfold lstate. set (a := expo (before l j 3)) in *. set (b := expo (at_ l j 1)) in *. clearbody a b.
  destruct (mark_high (Z.max a b) ltac:(lia)) as (M1 & M2). rewrite M1, M2, mark_low by lia. replace (0 <? Z.max a b) with ((0 <? a) || (0 <? b)); [tauto |].
  destruct (Z.ltb_spec 0 a), (Z.ltb_spec 0 b), (Z.ltb_spec 0 (Z.max a b)); cbn [orb]; try reflexivity; lia.
Qed.
Lemma before_S : forall l i n, before l (i + 1) n = at_ l i n.
Proof. intros l i n. rewrite Nat.add_1_r. reflexivity. Qed.

Lemma full_c_ok : forall p a i c l, cells_ok p a -> c = 2 * bit (l 2%nat || l 3%nat) ->
  full_c false c (lstate a i) (lstate a (i + 1)) = context (Some a) i l /\ 0 <= context (Some a) i l < 8.
Proof.
  intros p a i c l H ->. unfold full_c, context. destruct (lstate_facts p a i H) as (F1 & _). destruct (lstate_facts p a (i + 1) H) as (_ & F2 & _). rewrite F1, F2, before_S.
  destruct (l 2%nat || l 3%nat), (sig (before a i 3) || sig (at_ a i 1)), (sig (at_ a i 3) || sig (at_ a (i + 1) 1)); (split; [reflexivity | cbn; lia]).
Qed.
Lemma first_c_ok : forall i l, 0 <= context None i l < 8.
Proof. intros i l. unfold context. destruct (l 0%nat || l 1%nat), (l 2%nat), (l 3%nat); cbn; lia. Qed.
Lemma emax_ok : forall p a i q u, cells_ok p a -> 0 <= u <= 39 -> add_emax false (u + 1) q (lstate a i) (lstate a (i + 1)) = kappa (Some a) i q + u /\ 1 <= kappa (Some a) i q.
Proof.
  intros p a i q u H U. unfold add_emax, kappa. destruct (next_facts q) as (_ & _ & ->). destruct (two_or_more q); [| lia].
  destruct (lstate_facts p a i H) as (_ & _ & F1). destruct (lstate_facts p a (i + 1) H) as (_ & _ & F2). rewrite F1, F2, before_S.
  pose proof (expo_range p _ (before_ok p a i 3 H)). pose proof (expo_range p _ (at_ok p a i 1 H)). pose proof (expo_range p _ (at_ok p a i 3 H)). pose proof (expo_range p _ (at_ok p a (i + 1) 1 H)).
  set (A := Z.max (expo (before a i 3)) (expo (at_ a i 1))) in *. set (C := Z.max (expo (at_ a i 3)) (expo (at_ a (i + 1) 1))) in *. assert (RA : 0 <= A <= 31) by lia. assert (RC : 0 <= C <= 31) by lia. clearbody A C. cbv zeta.
  replace (if C <? A then A else C) with (Z.max A C) by (destruct (Z.ltb_spec C A); lia). destruct (Z.ltb_spec 2 (Z.max A C)); [rewrite (u32_id (Z.max A C - 2)) by lia |]; rewrite u32_id by lia; lia.
Qed.
Lemma kappa_none : forall i q, kappa None i q = 1.
Proof. reflexivity. Qed.

Lemma one_sig : forall e U n s o s', one_sample e U n s = Some (o, s') -> sig o = q_sig e n.
Proof.
  intros e U n s o s' E. unfold one_sample in E. destruct (q_sig e n); [| injection E as <- _; reflexivity]. cbv zeta in E. destruct (_ <? _)%nat; [discriminate |]. injection E as <- _. reflexivity.
Qed.
Lemma quad_sig : forall e U s a b c d s', quad_samples e U s = Some ([a; b; c; d], s') -> sig a = q_sig e 0 /\ sig b = q_sig e 1 /\ sig c = q_sig e 2 /\ sig d = q_sig e 3.
Proof.
  intros e U s a b c d s' E. unfold quad_samples in E.
  destruct (one_sample e U 0 s) as [[x0 s0] |] eqn:E0; [| discriminate]. destruct (one_sample e U 1 s0) as [[x1 s1] |] eqn:E1; [| discriminate].
  destruct (one_sample e U 2 s1) as [[x2 s2] |] eqn:E2; [| discriminate]. destruct (one_sample e U 3 s2) as [[x3 s3] |] eqn:E3; [| discriminate]. injection E as -> -> -> -> _.
  split; [exact (one_sig _ _ _ _ _ _ E0) |]. split; [exact (one_sig _ _ _ _ _ _ E1) |]. split; [exact (one_sig _ _ _ _ _ _ E2) | exact (one_sig _ _ _ _ _ _ E3)].
Qed.

(** ** Between two turns *)

Definition src_inv (buf : list Z) (run : Z) (m : mel) (vlc : rev_st) (f : frwd) (n : nat) (s : src) : Prop :=
  Vok buf vlc (8 * n) (s_vlc s) /\ Mok buf run m (12 * n) (s_mel s) /\ Fok buf f (64 * n) (s_ms s).
(** [line_state] when [done] is decoded, [c] being [c_q]. *)
Definition ls_inv (width : Z) (nq : nat) (above : option (list cell)) (done : list cell) (ls : Z -> Z) (ls0 c : Z) : Prop :=
  let i := length done in
  ls (Z.of_nat i) = mark (expo (before done i 3)) /\ (forall j, (j < i)%nat -> ls (Z.of_nat j) = lstate done j) /\
  match above with
  | None => 2 * Z.of_nat i < width -> c = context None i (fun n => sig (before done i n))
  | Some a => ls0 = lstate a i /\ (forall j, (i < j <= nq)%nat -> ls (Z.of_nat j) = lstate a j) /\ (2 * Z.of_nat i < width -> c = 2 * bit (sig (before done i 2) || sig (before done i 3)))
  end.
Definition data_inv (p width height : Z) (before_ : list (list cell)) (done : list cell) (data0 data : Z -> Z) : Prop :=
  (forall X Y, 0 <= X < width -> 0 <= Y < height -> (Y / 2 < Z.of_nat (length before_) \/ (Y / 2 = Z.of_nat (length before_) /\ X / 2 < Z.of_nat (length done))) ->
     data (Y * width + X) = enc p (sample_at (before_ ++ [done]) X Y)) /\
  (forall j, ~ 0 <= j < width * height -> data j = data0 j).

Lemma at_app : forall l c i n, (i < length l)%nat -> at_ (l ++ c) i n = at_ l i n.
Proof. intros l c i n H. unfold at_. rewrite app_nth1 by exact H. reflexivity. Qed.
Lemma at_new0 : forall l a b n, at_ (l ++ [a; b]) (length l) n = nth n a None.
Proof. intros l a b n. unfold at_. rewrite app_nth2, Nat.sub_diag by lia. reflexivity. Qed.
Lemma at_new1 : forall l a b n, at_ (l ++ [a; b]) (length l + 1) n = nth n b None.
Proof. intros l a b n. unfold at_. rewrite app_nth2 by lia. replace (length l + 1 - length l)%nat with 1%nat by lia. reflexivity. Qed.
Lemma before_app : forall l c n, before (l ++ c) (length l) n = before l (length l) n.
Proof. intros [| x l] c n; [reflexivity |]. cbn [length before]. apply at_app. cbn [length]. lia. Qed.
Lemma at_len : forall l n, at_ l (length l) n = None.
Proof. intros l n. unfold at_. rewrite (nth_overflow l) by lia. destruct n; reflexivity. Qed.
Lemma sample_last : forall L d X Y, Y / 2 = Z.of_nat (length L) -> sample_at (L ++ [d]) X Y = at_ d (Z.to_nat (X / 2)) (Z.to_nat (2 * (X mod 2) + Y mod 2)).
Proof. intros L d X Y E. unfold sample_at. rewrite E, Nat2Z.id, app_nth2, Nat.sub_diag by lia. reflexivity. Qed.
Lemma sample_old : forall L d X Y, 0 <= Y / 2 < Z.of_nat (length L) -> sample_at (L ++ [d]) X Y = sample_at L X Y.
Proof. intros L d X Y E. unfold sample_at. rewrite app_nth1 by lia. reflexivity. Qed.

(** The samples of a pair, put in their places. *)
Lemma pair_data : forall p w h L done data0 data data1 data2 (c0 c1 : cell), 0 <= w -> data_inv p w h L done data0 data ->
  (forall X Y, 0 <= X < w -> 0 <= Y < h -> data1 (Y * w + X) = if (X / 2 =? Z.of_nat (length done)) && (Y / 2 =? Z.of_nat (length L)) then enc p (nth (Z.to_nat (2 * (X mod 2) + Y mod 2)) c0 None) else data (Y * w + X)) ->
  (forall j, ~ 0 <= j < w * h -> data1 j = data j) ->
  (forall X Y, 0 <= X < w -> 0 <= Y < h -> data2 (Y * w + X) = if (X / 2 =? Z.of_nat (length done) + 1) && (Y / 2 =? Z.of_nat (length L)) then enc p (nth (Z.to_nat (2 * (X mod 2) + Y mod 2)) c1 None) else data1 (Y * w + X)) ->
  (forall j, ~ 0 <= j < w * h -> data2 j = data1 j) ->
  data_inv p w h L (done ++ [c0; c1]) data0 data2.
Proof.
  intros p w h L done data0 data data1 data2 c0 c1 W (D1 & D2) Q1 Q2 Q3 Q4. split; [| intros j J; rewrite Q4, Q2 by exact J; apply D2, J].
  intros X Y HX HY Hd. rewrite Q3, Q1 by assumption. assert (0 <= X / 2) by (apply Z.div_pos; lia). assert (0 <= Y / 2) by (apply Z.div_pos; lia).
  destruct (Z.eqb_spec (Y / 2) (Z.of_nat (length L))) as [EY | EY].
  - rewrite !andb_true_r, sample_last by exact EY. rewrite app_length in Hd. cbn [length] in Hd. destruct (Z.eqb_spec (X / 2) (Z.of_nat (length done) + 1)) as [E1 | E1].
    + replace (Z.to_nat (X / 2)) with (length done + 1)%nat by lia. rewrite at_new1. reflexivity.
    + destruct (Z.eqb_spec (X / 2) (Z.of_nat (length done))) as [E0 | E0].
      * replace (Z.to_nat (X / 2)) with (length done) by lia. rewrite at_new0. reflexivity.
      * rewrite D1 by (try assumption; lia). rewrite sample_last by exact EY. rewrite at_app by lia. reflexivity.
  - rewrite !andb_false_r. rewrite D1 by (try assumption; lia). rewrite !sample_old by lia. reflexivity.
Qed.
