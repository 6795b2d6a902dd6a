(** Proof part of C74: code words, events and u values of a pair of quads. *)

From Coq Require Import ZArith List Bool Lia.
From Verif Require Import Ints HtModel HtSpec HtBits HtForward HtBackward HtMel HtMelEvents HtReadProps HtUvlcProps HtLuts HtLutsProps HtCupModel HtCupSpec.
Import ListNotations.
Local Open Scope Z_scope.

Definition Vok (buf : list Z) (v : rev_st) (n : nat) (V : list bool) : Prop := exists r, bholds buf v r V /\ (n <= length r)%nat.
Definition Mok (buf : list Z) (run : Z) (m : mel) (n : nat) (s : mel_state) : Prop :=
  exists r k S q, queue buf m r k S q /\ spec_at run k S s /\ (n <= length r)%nat.
Definition Fok (buf : list Z) (f : frwd) (n : nat) (M : list bool) : Prop := exists r, fholds buf f r M /\ (n <= length r)%nat.

Lemma Mok_le : forall buf run m n n' s, Mok buf run m n s -> (n' <= n)%nat -> Mok buf run m n' s.
Proof. intros buf run m n n' s (r & k & S & q & A & B & C) L. exists r, k, S, q. split; [exact A |]. split; [exact B | lia]. Qed.

Lemma event_ok : forall buf n run m s, Forall byte buf -> Mok buf run m (4 + n) s ->
  exists e run' m' s', mel_event buf run m = Some (e, run', m') /\ mel_sym s = Some (e, s') /\ Mok buf run' m' n s'.
Proof.
  intros buf n run m s B (rest & k & S & q & H & (r & o & R & M) & L). unfold mel_event, mel_sym. rewrite R. cbn [ms_run ms_one ms_bits ms_k]. cbn zeta.
  destruct (get_run_ok buf m rest k S q B H ltac:(lia)) as (c & m' & rest' & q' & k1 & S1 & E & Ms & H' & L'). rewrite E.
  assert (Next : Mok buf c m' n (mkMS k 0 false S)).
  { exists rest', k1, S1, q'. split; [exact H' |]. split; [apply mstep_refill, Ms | lia]. }
  assert (Stay : forall run' s', spec_at run' k S s' -> Mok buf run' m n s').
  { intros run' s' P. exists rest, k, S, q. split; [exact H |]. split; [exact P | lia]. }
  destruct o; cbn [means] in M.
  - destruct r as [| r].
    + replace (run - 2) with (-1) by lia. cbn [Z.eqb Z.ltb Z.compare Pos.eqb]. do 4 eexists. split; [reflexivity |]. split; [reflexivity | exact Next].
    + destruct (Z.eqb_spec (run - 2) (-1)); [lia |]. destruct (Z.ltb_spec (run - 2) 0); [lia |]. do 4 eexists. split; [reflexivity |]. split; [reflexivity |]. apply Stay.
      exists r, true. unfold mel_refill. cbn [ms_run ms_one negb andb]. rewrite andb_false_r. split; [reflexivity |]. cbn [means]. lia.
  - destruct M as (P & M). destruct r as [| r]; [lia |]. destruct (Z.eqb_spec (run - 2) (-1)); [lia |]. destruct r as [| r].
    + destruct (Z.ltb_spec (run - 2) 0); [| lia]. do 4 eexists. split; [reflexivity |]. split; [reflexivity | exact Next].
    + destruct (Z.ltb_spec (run - 2) 0); [lia |]. do 4 eexists. split; [reflexivity |]. split; [reflexivity |]. apply Stay.
      exists (Datatypes.S r), false. split; [reflexivity |]. cbn [means]. lia.
Qed.

(** ** Code words *)

Definition good_e (e : Z) : Prop :=
  0 <= e < 65536 /\ forall n, (n < 4)%nat -> (q_e1 e n = true -> q_ek e n = true) /\ (q_ek e n = true -> q_uoff e = true).
Lemma good_zero : good_e 0.
Proof. split; [lia |]. intros n N. unfold q_e1, q_ek, q_uoff. rewrite !Z.bits_0. split; discriminate. Qed.
Lemma good_entry : forall tbl c w, tbl = vlc_tbl0 \/ tbl = vlc_tbl1 -> 0 <= c < 8 -> 0 <= w < 128 -> good_e (nth (Z.to_nat (128 * c + w)) tbl 0).
Proof.
  intros tbl c w T C W. fold (entry tbl c w). split; [destruct (c73_sense tbl c w 0 T C W ltac:(lia)) as (R & _); exact R |].
  intros n N. destruct (c73_sense tbl c w (Z.of_nat n) T C W ltac:(lia)) as (_ & R1 & R2 & _). unfold q_e1, q_ek, q_uoff. split; [exact R1 |]. intros K. apply (R2 K).
Qed.
Lemma number7 : forall V, 0 <= number (firstn 7 V) < 128.
Proof.
  intros V. pose proof (number_small (firstn 7 V)) as R. assert (P : 2 ^ Z.of_nat (length (firstn 7 V)) <= 2 ^ 7) by (apply Z.pow_le_mono_r; [lia |]; rewrite firstn_length; lia).
  change (2 ^ 7) with 128 in P. lia.
Qed.
Lemma index_eq : forall c w, 0 <= c < 8 -> Z.lor (shl32 c 7) (Z.land w 127) = 128 * c + w mod 128.
Proof.
  intros c w C. rewrite land127. unfold shl32. rewrite Z.shiftl_mul_pow2 by lia. change (2 ^ 7) with 128. rewrite u32_id by lia.
  pose proof (Z.mod_pos_bound w 128 ltac:(lia)) as R. set (x := w mod 128) in *. clearbody x. rewrite (Z.mul_comm 128). rewrite <- Z.lxor_lor; [symmetry; apply Z.add_nocarry_lxor |].
  all: apply Z.bits_inj'; intros j J; rewrite Z.land_spec, Z.bits_0; destruct (Z.lt_ge_cases j 7) as [K | K].
  all: try (change 128 with (2 ^ 7); rewrite Z.mul_pow2_bits_low by lia; reflexivity).
  all: replace (Z.testbit x j) with false; [apply andb_false_r |]; symmetry; destruct (Z.eq_dec x 0) as [-> | NZ]; [apply Z.bits_0 |]; apply Z.bits_above_log2; [lia |]; apply Z.lt_le_trans with 7; [apply Z.log2_lt_pow2; [lia | change (2 ^ 7) with 128; lia] | exact K].
Qed.

Lemma quad_vlc_ok : forall tbl buf c run m w n V sm M, Forall byte buf -> tbl = vlc_tbl0 \/ tbl = vlc_tbl1 -> 0 <= c < 8 -> Mok buf run m (4 + n) sm ->
  (7 <= length V)%nat -> w mod 2 ^ 7 = number (firstn 7 V) ->
  exists e run' m' sm', quad_vlc tbl buf c run m w = Some (e, run', m') /\ quad_code tbl c (mkSrc V sm M) = Some (e, mkSrc (skipn (Z.to_nat (Z.land e 7)) V) sm' M) /\
    Mok buf run' m' n sm' /\ good_e e /\ 0 <= Z.land e 7 <= 7.
Proof.
  intros tbl buf c run m w n V sm M B T C H L W. unfold quad_vlc, quad_code, code_word. cbn [s_vlc s_mel s_ms]. change (2 ^ 7) with 128 in W. rewrite index_eq, W by exact C.
  destruct (Nat.ltb_spec (length V) 7); [lia |]. pose proof (number7 V) as R. destruct (tables_ok tbl T) as (Ln & _).
  set (i := Z.to_nat (128 * c + number (firstn 7 V))). assert (Hi : (i < length tbl)%nat) by (rewrite Ln; unfold i; lia).
  rewrite (nth_error_nth' tbl 0 Hi). pose proof (good_entry tbl c (number (firstn 7 V)) T C R) as G. fold i in G. set (e := nth i tbl 0) in *. clearbody e.
  assert (L7 : forall e, 0 <= Z.land e 7 <= 7) by (intros x; rewrite land7; pose proof (Z.mod_pos_bound x 8 ltac:(lia)); lia).
  destruct (Z.eqb_spec c 0).
  - destruct (event_ok buf n run m sm B H) as (b & run' & m' & sm' & E1 & E2 & H'). rewrite E1, E2. destruct b.
    + exists e, run', m', sm'. split; [reflexivity |]. split; [rewrite land7; reflexivity |]. split; [exact H' |]. split; [exact G | apply L7].
    + exists 0, run', m', sm'. split; [reflexivity |]. split; [reflexivity |]. split; [exact H' |]. split; [apply good_zero | apply L7].
  - exists e, run, m, sm. split; [reflexivity |]. split; [rewrite land7; reflexivity |]. split; [apply (Mok_le _ _ _ _ _ _ H); lia |]. split; [exact G | apply L7].
Qed.

(** ** u values *)

Definition bits32 (w : Z) : list bool := low_bits 32 w.
Lemma bits32_number : forall w, 0 <= w < 2 ^ 32 -> number (bits32 w) = w.
Proof.
  intros w W. apply Z.bits_inj'. intros j J. rewrite <- (Z2Nat.id j) by lia. rewrite number_bit. destruct (Nat.lt_ge_cases (Z.to_nat j) 32) as [K | K].
  - unfold bits32. rewrite low_bits_nth by exact K. reflexivity.
  - rewrite nth_overflow by (unfold bits32; rewrite low_bits_length; exact K). symmetry. destruct (Z.eq_dec w 0) as [-> | NZ]; [apply Z.bits_0 |].
    apply Z.bits_above_log2; [lia |]. apply Z.lt_le_trans with 32; [apply Z.log2_lt_pow2; lia | lia].
Qed.
Lemma number_firstn_inj : forall k a b, (k <= length a)%nat -> (k <= length b)%nat -> number (firstn k a) = number (firstn k b) -> firstn k a = firstn k b.
Proof.
  induction k as [| k IH]; intros a b La Lb E; [reflexivity |]. destruct a as [| x a], b as [| y b]; cbn [length] in La, Lb; try lia. cbn [firstn] in *. rewrite !number_cons in E.
  assert (x = y /\ number (firstn k a) = number (firstn k b)) as (-> & E') by (destruct x, y; split; try reflexivity; lia). f_equal. apply IH; [lia | lia | exact E'].
Qed.
(** A word that begins with the bits of [V]. *)
Lemma word_of : forall w k V, 0 <= w < 2 ^ 32 -> (k <= 32)%nat -> (k <= length V)%nat -> w mod 2 ^ Z.of_nat k = number (firstn k V) ->
  exists a t1 t2, length a = k /\ V = a ++ t1 /\ w = number (a ++ t2) /\ length (a ++ t2) = 32%nat.
Proof.
  intros w k V W K L E. exists (firstn k V), (skipn k V), (skipn k (bits32 w)). split; [rewrite firstn_length; lia |]. split; [symmetry; apply firstn_skipn |].
  assert (Eq : firstn k V = firstn k (bits32 w)).
  { symmetry. apply number_firstn_inj; [unfold bits32; rewrite low_bits_length; exact K | exact L |]. rewrite <- E. rewrite <- number_mask, bits32_number by exact W.
    rewrite Z.shiftl_1_l, Z.sub_1_r, <- Z.ones_equiv, Z.land_ones by lia. reflexivity. }
  rewrite Eq, firstn_skipn. split; [symmetry; apply bits32_number, W | unfold bits32; apply low_bits_length].
Qed.

Lemma prefix_local : forall a, (3 <= length a)%nat -> exists p n k, (k <= 3)%nat /\ (n <= 5)%nat /\ forall t, u_prefix (a ++ t) = Some (p, n, skipn k (a ++ t)).
Proof.
  intros [| b0 [| b1 [| b2 a]]] L; cbn [length] in L; try lia.
  destruct b0; [exists 1, 0%nat, 1%nat | destruct b1; [exists 2, 0%nat, 2%nat | destruct b2; [exists 3, 1%nat, 3%nat | exists 5, 5%nat, 3%nat]]]; (split; [lia |]; split; [lia |]; intros t; reflexivity).
Qed.
Lemma skip_app : forall (a t : list bool) k, (k <= length a)%nat -> skipn k (a ++ t) = skipn k a ++ t.
Proof. intros a t k K. rewrite skipn_app. replace (k - length a)%nat with 0%nat by lia. reflexivity. Qed.
Lemma first_app : forall (a t : list bool) k, (k <= length a)%nat -> firstn k (a ++ t) = firstn k a.
Proof. intros a t k K. rewrite firstn_app. replace (k - length a)%nat with 0%nat by lia. apply app_nil_r. Qed.
Lemma one_local : forall a, (8 <= length a)%nat -> exists u k, (k <= 8)%nat /\ forall t, u_one (a ++ t) = Some (u, skipn k (a ++ t)).
Proof.
  intros a L. destruct (prefix_local a ltac:(lia)) as (p & n & k & K & N & E). exists (p + number (firstn n (skipn k a))), (n + k)%nat. split; [lia |].
  intros t. unfold u_one. rewrite E. rewrite skip_twice. f_equal. f_equal. rewrite skip_app by lia. rewrite first_app by (rewrite skipn_length; lia). reflexivity.
Qed.
Lemma pair_local : forall a, (16 <= length a)%nat -> exists u0 u1 k, (k <= 16)%nat /\ forall t, u_pair (a ++ t) = Some (u0, u1, skipn k (a ++ t)).
Proof.
  intros a L. destruct (prefix_local a ltac:(lia)) as (p & n & k & K & N & E).
  destruct (prefix_local (skipn k a) ltac:(rewrite skipn_length; lia)) as (p' & n' & k' & K' & N' & E').
  set (a' := skipn k' (skipn k a)). assert (La : (length a' = length a - k - k')%nat) by (unfold a'; rewrite !skipn_length; lia).
  exists (p + number (firstn n a')), (p' + number (firstn n' (skipn n a'))), (n + n' + k' + k)%nat. split; [lia |].
  intros t. unfold u_pair. rewrite E. rewrite skip_app by lia. rewrite E'. rewrite (skip_app (skipn k a) t k') by (rewrite skipn_length; lia). fold a'.
  rewrite first_app by lia. rewrite (skip_app a' t n) by lia. rewrite first_app by (rewrite skipn_length; lia). f_equal. f_equal.
  rewrite <- (skip_twice _ (n + n' + k') k), <- (skip_twice _ (n + n') k'). rewrite (skip_app a t k) by lia. rewrite (skip_app (skipn k a) t k') by (rewrite skipn_length; lia). reflexivity.
Qed.

Lemma back : forall (l : list bool) k, (k <= length l)%nat -> Z.of_nat (length l) - Z.of_nat (length (skipn k l)) = Z.of_nat k.
Proof. intros l k K. rewrite skipn_length. lia. Qed.

(** The mode for the bits u_off; the first line adds an event. *)
Definition mode_of (b0 b1 : bool) : Z := bit b0 + 2 * bit b1.
(** What [u_code] gives is what the decoder takes from the word. *)
Definition u_agrees (first b0 b1 : bool) (V : list bool) (w : Z) (run : Z) (m : mel) (buf : list Z) (n : nat) (sm : mel_state) (M : list bool) : Prop :=
  exists mode run' m' sm' used u0 u1,
    (if first && (mode_of b0 b1 =? 3) then match mel_event buf run m with Some (e, run, m) => Some (mode_of b0 b1 + one e, run, m) | None => None end else Some (mode_of b0 b1, run, m)) = Some (mode, run', m') /\
    (if first then decode_init_uvlc w mode else decode_noninit_uvlc w mode) = (used, (u0 + 1, u1 + 1)) /\ 0 <= used <= 16 /\
    u_code first b0 b1 (mkSrc V sm M) = Some (u0, u1, mkSrc (skipn (Z.to_nat used) V) sm' M) /\ Mok buf run' m' n sm' /\
    0 <= u0 <= 39 /\ 0 <= u1 <= 39 /\ (b0 = true -> 1 <= u0) /\ (b1 = true -> 1 <= u1).

Lemma u_agrees_ok : forall first b0 b1 V w run m buf n sm M, Forall byte buf -> Mok buf run m (4 + n) sm -> 0 <= w < 2 ^ 32 -> (18 <= length V)%nat -> w mod 2 ^ 18 = number (firstn 18 V) ->
  u_agrees first b0 b1 V w run m buf n sm M.
Proof.
  intros first b0 b1 V w run m buf n sm M B H W L E. destruct (word_of w 18 V W ltac:(lia) L E) as (a & t1 & t2 & La & -> & -> & L2). clear W E L.
  assert (H0 : Mok buf run m n sm) by (apply (Mok_le _ _ _ _ _ _ H); lia).
  unfold u_agrees. destruct (one_local a ltac:(lia)) as (u & k & K & E1). destruct (pair_local a ltac:(lia)) as (v0 & v1 & j & J & E2).
  assert (One : forall mode, mode = 1 \/ mode = 2 -> 1 <= u <= 37 /\ one_uvlc (number (a ++ t2)) mode = (Z.of_nat k, if mode =? 1 then (u + 1, 1) else (1, u + 1))).
  { intros mode Hm. destruct (one_ok (a ++ t2) mode ltac:(lia) Hm) as (u' & rest & X & R & Y). rewrite E1 in X. injection X as <- <-. split; [exact R |]. rewrite Y, back by lia. reflexivity. }
  assert (Two : forall i, 0 <= i <= 3 -> 1 <= v0 <= 37 /\ 1 <= v1 <= 37 /\ both_uvlc (number (a ++ t2)) i = (Z.of_nat j, (v0 + i, v1 + i))).
  { intros i Hi. destruct (both_ok (a ++ t2) i ltac:(lia) Hi) as (x0 & x1 & rest & X & R0 & R1 & Y). rewrite E2 in X. injection X as <- <- <-. split; [exact R0 |]. split; [exact R1 |]. rewrite Y, back by lia. reflexivity. }
  destruct b0, b1; unfold mode_of; cbn [bit]; change (1 + 2 * 1) with 3; change (1 + 2 * 0) with 1; change (0 + 2 * 1) with 2; change (0 + 2 * 0) with 0.
  - (* both *) change (3 =? 3) with true. rewrite andb_true_r. cbn [u_code]. destruct first.
    + destruct (event_ok buf n run m sm B H) as (e & run' & m' & sm' & X1 & X2 & H'). cbn [s_mel s_vlc s_ms]. rewrite X1, X2. destruct e; cbn [one].
      * change (3 + 1) with 4. destruct (Two 3 ltac:(lia)) as (R0 & R1 & Y). unfold decode_init_uvlc. change (4 <=? 2) with false. change (4 =? 3) with false. cbv iota. rewrite Y.
        unfold u_both. cbn [s_vlc]. rewrite E2. cbn [with_vlc s_mel s_ms]. exists 4, run', m', sm', (Z.of_nat j), (v0 + 2), (v1 + 2). split; [reflexivity |]. split; [replace (v0 + 2 + 1) with (v0 + 3) by lia; replace (v1 + 2 + 1) with (v1 + 3) by lia; reflexivity |]. split; [lia |].
        split; [rewrite Nat2Z.id; reflexivity |]. split; [exact H' |]. repeat (split; [lia |]). lia.
      * change (3 + 0) with 3. destruct (c71_init (a ++ t2) L2) as (_ & _ & (p & i & l' & X & Y1 & Y2) & _). destruct (prefix_local a ltac:(lia)) as (p' & i' & k' & K' & N' & E3).
        rewrite E3 in X. injection X as <- <- <-. rewrite E3. destruct (Z.ltb_spec 2 p') as [P | P].
        -- destruct (Y2 P) as (b & l'' & El & Yd). rewrite skip_app in El |- * by lia. destruct (skipn k' a) as [| b' a'] eqn:Ea.
           { assert (Q : length (skipn k' a) = 0%nat) by (rewrite Ea; reflexivity). rewrite skipn_length in Q. lia. }
           assert (Q : length (skipn k' a) = S (length a')) by (rewrite Ea; reflexivity). rewrite skipn_length in Q.
           cbn [app] in El |- *. injection El as <- <-. rewrite first_app in Yd by lia. pose proof (number_short i' a' N') as Ns. destruct (look_ok (a ++ t2) ltac:(lia)) as (pp & nn & kk & Z1 & _ & _ & _ & _ & _ & Pr & _). rewrite E3 in Z1. injection Z1 as <- <- _.
           rewrite !first_app by lia. exists 3, run', m', sm', (32 - Z.of_nat (length (skipn i' (a' ++ t2)))), (p' + number (firstn i' a')), (if b' then 2 else 1).
           split; [reflexivity |]. split; [exact Yd |]. assert (L3 : length (a' ++ t2) = (31 - k')%nat) by (rewrite app_length in L2 |- *; lia). rewrite skipn_length, L3.
           split; [lia |]. split; [| split; [exact H' | destruct b'; repeat (split; [lia |]); lia]]. unfold with_vlc. cbn [s_mel s_ms]. do 3 f_equal.
           replace (Z.to_nat (32 - Z.of_nat (31 - k' - i'))) with (S i' + k')%nat by lia. rewrite <- skip_twice, (skip_app a t1 k') by lia. rewrite Ea. reflexivity.
        -- destruct (Two 1 ltac:(lia)) as (R0 & R1 & _). destruct (Y1 P) as (x0 & x1 & rest & X & Y). rewrite E2 in X. injection X as <- <- <-.
           unfold u_both. cbn [s_vlc]. rewrite E2. cbn [with_vlc s_mel s_ms]. replace 32 with (Z.of_nat (length (a ++ t2))) in Y by lia. rewrite back in Y by lia. rewrite !Z.add_0_r.
           exists 3, run', m', sm', (Z.of_nat j), v0, v1. split; [reflexivity |]. split; [exact Y |]. split; [lia |]. split; [rewrite Nat2Z.id; reflexivity |]. split; [exact H' |]. repeat (split; [lia |]). lia.
    + destruct (Two 1 ltac:(lia)) as (R0 & R1 & Y). unfold decode_noninit_uvlc. change (3 <=? 2) with false. cbv iota. rewrite Y. unfold u_both. cbn [s_vlc]. rewrite E2. cbn [with_vlc s_mel s_ms]. rewrite !Z.add_0_r.
      exists 3, run, m, sm, (Z.of_nat j), v0, v1. split; [reflexivity |]. split; [reflexivity |]. split; [lia |]. split; [rewrite Nat2Z.id; reflexivity |]. split; [exact H0 |]. repeat (split; [lia |]). lia.
  - change (1 =? 3) with false. rewrite andb_false_r. cbn [u_code s_vlc]. rewrite E1. destruct (One 1 (or_introl eq_refl)) as (R & Y). exists 1, run, m, sm, (Z.of_nat k), u, 0. split; [reflexivity |].
    split; [unfold decode_init_uvlc, decode_noninit_uvlc; change (1 <=? 2) with true; cbv iota; rewrite Y; destruct first; reflexivity |]. split; [lia |]. split; [rewrite Nat2Z.id; reflexivity |]. split; [exact H0 |]. repeat (split; [lia |]). discriminate.
  - change (2 =? 3) with false. rewrite andb_false_r. cbn [u_code s_vlc]. rewrite E1. destruct (One 2 (or_intror eq_refl)) as (R & Y). exists 2, run, m, sm, (Z.of_nat k), 0, u. split; [reflexivity |].
    split; [unfold decode_init_uvlc, decode_noninit_uvlc; change (2 <=? 2) with true; cbv iota; rewrite Y; destruct first; reflexivity |]. split; [lia |]. split; [rewrite Nat2Z.id; reflexivity |]. split; [exact H0 |]. repeat (split; [lia |]). lia.
  - change (0 =? 3) with false. rewrite andb_false_r. exists 0, run, m, sm, 0, 0, 0. split; [reflexivity |]. split; [destruct first; reflexivity |]. split; [lia |]. split; [reflexivity |]. split; [exact H0 |]. repeat (split; [lia |]). discriminate.
Qed.
