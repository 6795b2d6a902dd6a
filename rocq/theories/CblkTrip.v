(** A code-block through its layers. *)

From Coq Require Import ZArith List Lia Bool.
From Verif Require Import Ints I32 Mem BioSpec MqModel MqProofs MqEnd MqProps T2CodesModel T2PacketModel T2PacketSpec T2PacketProps.
From Verif Require Import T1Luts T1Model T1Spec T1Bits T1Rel T1Enc T1Stage T1Dec T1Code T1Block T1Trip T1Total T1Shape T1Props CblkModel.
From Verif Require Import Ints.
Import ListNotations.
Local Open Scope Z_scope.

(** ** Terminations *)

Lemma term_same : forall sty n k, 1 <= n -> terminated sty n (pass_bpno n k) (Z.of_nat (pass_type k)) = is_term sty n k.
Proof.
  intros sty n k Hn. unfold terminated, is_term. assert (H : (pass_type k < 3)%nat) by (apply Nat.mod_upper_bound; lia).
  assert (pass_type k = 0 \/ pass_type k = 1 \/ pass_type k = 2)%nat as [-> | [-> | ->]] by lia; cbn [Nat.eqb Nat.ltb Nat.leb Z.of_nat Pos.of_succ_nat Pos.succ Z.eqb Pos.eqb andb orb];
    set (p := pass_bpno n k); destruct (Z.eqb_spec p 0), (Z.land sty 4 =? 0), (Z.land sty 1 =? 0), (Z.eqb_spec p (n - 4)), (Z.ltb_spec p (n - 4)), (Z.leb_spec p (n - 4)); cbn; try reflexivity; lia.
Qed.

Lemma passes_terms : forall B sty n k i s, 1 <= n ->
  map (fun P => snd (fst P)) (passes_from B sty n k (pass_bpno n i) (Z.of_nat (pass_type i)) s) = map (is_term sty n) (seq i k).
Proof.
  intros B sty n. induction k as [| k IH]; intros i s Hn; [reflexivity |]. cbn [passes_from seq map].
  destruct (coding_pass (bypassed sty n (pass_bpno n i) (Z.of_nat (pass_type i))) B (pass_bpno n i) (Z.of_nat (pass_type i)) s) as [s' o]. cbn [map fst snd].
  f_equal; [apply term_same, Hn |].
  assert (D := Nat.div_mod (i + 2) 3 ltac:(lia)). assert (M := Nat.mod_upper_bound (i + 2) 3 ltac:(lia)).
  assert (D' := Nat.div_mod (S i + 2) 3 ltac:(lia)). assert (M' := Nat.mod_upper_bound (S i + 2) 3 ltac:(lia)).
  destruct (Z.eqb_spec (Z.of_nat (pass_type i)) 2) as [T | T].
  - replace (pass_bpno n i - 1) with (pass_bpno n (S i)) by (unfold pass_bpno, pass_type in *; lia). replace 0 with (Z.of_nat (pass_type (S i))) by (unfold pass_type in *; lia). apply IH, Hn.
  - replace (pass_bpno n i) with (pass_bpno n (S i)) by (unfold pass_bpno, pass_type in *; lia). replace (Z.of_nat (pass_type i) + 1) with (Z.of_nat (pass_type (S i))) by (unfold pass_type in *; lia). apply IH, Hn.
Qed.

Lemma block_terms : forall B sty n, 1 <= n -> map (fun P => snd (fst P)) (block_passes B sty n) = map (is_term sty n) (seq 0 (Z.to_nat (3 * n - 2))).
Proof.
  intros B sty n Hn. unfold block_passes. rewrite <- (passes_terms B sty n _ 0 (initial n) Hn).
  replace (pass_bpno n 0) with (n - 1) by (unfold pass_bpno; change ((0 + 2) / 3)%nat with 0%nat; lia). reflexivity.
Qed.

(** ** What block coding leaves *)

Record Coded (sty bits : Z) (k : coded) : Prop := mkCodedOk {
  cd_planes : k_rates k = [] /\ (k_numbps k = 0 \/ 2 ^ 32 - 6 < k_numbps k < 2 ^ 32) \/
              1 <= k_numbps k <= bits /\ length (k_rates k) = Z.to_nat (3 * k_numbps k - 2);
  cd_terms : k_terms k = map (is_term sty (k_numbps k)) (seq 0 (length (k_rates k)));
  cd_rates : forall i j, (i <= j < length (k_rates k))%nat -> 0 <= nth i (k_rates k) 0 <= nth j (k_rates k) 0 /\ nth j (k_rates k) 0 <= Z.of_nat (length (k_data k));
  cd_bytes : Forall byte_range (k_data k) }.

Lemma coded_ok : forall start w h orient sty bits x m k, Fits w h orient start bits x m -> encoded start w h orient sty x m = Some k -> Coded sty bits k.
Proof.
  intros start w h orient sty bits x m k F E. pose proof F as [Hw Hh Hs Ho Hb Hx Hm Hst].
  assert (Hi : forall a b, 0 <= a < w -> 0 <= b < h -> in_i32 (scaled x a b)) by (intros a b Ha Hb'; apply (scaled_facts _ _ _ _ _ _ _ F a b Ha Hb')).
  unfold encoded in E. destruct (planes_cases w h (scaled x) Hw Hh Hi) as [(P1 & _) | (P1 & _)].
  - destruct (block_shape start w h orient sty (scaled x) m Hw Hh Hs Ho Hi Hm Hst ltac:(lia) ltac:(lia)) as (k' & E' & K1 & K2 & K3 & _ & K5 & _ & _ & K8 & _).
    assert (k' = k) as -> by congruence. assert (L : length (k_rates k) = Z.to_nat (3 * k_numbps k - 2)) by (rewrite K3; unfold block_passes; rewrite passes_count, K1; reflexivity).
    split; [right | | exact K5 | eapply Forall_impl; [| exact K8]; intros b Hb'; unfold byte_range; cbn in Hb'; lia].
    + split; [| exact L]. rewrite K1. destruct (planes_bits _ _ _ _ _ _ _ F); lia.
    + rewrite K2, L, K1. apply block_terms. lia.
  - destruct (encode_nothing start w h orient sty (scaled x) m Hw Hh Hi Hst) as (N & E' & HN); [lia |].
    assert (k = mkCoded N [] [] []) as -> by congruence. split; cbn [k_numbps k_rates k_terms k_data length].
    + left. split; [reflexivity | exact HN].
    + reflexivity.
    + intros i j H; lia.
    + constructor.
Qed.

Lemma i32_big : forall N, 2 ^ 32 - 6 < N < 2 ^ 32 -> i32 N = N - 2 ^ 32.
Proof. intros N H. unfold i32. replace (N + 2 ^ 31) with ((N - 2 ^ 31) + 1 * 2 ^ 32) by lia. rewrite Z.mod_add, Z.mod_small by lia. lia. Qed.

Lemma combine_seq : forall {A B : Type} (l : list A) (f : nat -> B) (d : A) i,
  combine l (map f (seq i (length l))) = map (fun k => (nth (k - i) l d, f k)) (seq i (length l)).
Proof.
  intros A B. induction l as [| a l IH]; intros f d i; [reflexivity |]. cbn [length seq map combine]. f_equal; [rewrite Nat.sub_diag; reflexivity |].
  rewrite (IH f d (S i)). apply map_ext_in. intros k Hk. apply in_seq in Hk. f_equal. replace (k - i)%nat with (S (k - S i)) by lia. reflexivity.
Qed.

Lemma coded_block_is : forall sty bits k cuts, Coded sty bits k -> bits <= 25 ->
  coded_block k cuts = make_block sty (i32 (k_numbps k)) (k_rates k) (k_data k) cuts.
Proof.
  intros sty bits k cuts [P T R B] Hb. unfold coded_block, make_block. f_equal. rewrite T.
  assert (L : length (pass_lens (k_rates k)) = length (k_rates k)) by (unfold pass_lens; rewrite map_length, seq_length; reflexivity).
  rewrite <- L at 1. rewrite (combine_seq _ _ 0), map_map. cbn [fst snd]. rewrite L.
  apply map_ext_in. intros i Hi. apply in_seq in Hi. rewrite Nat.sub_0_r. f_equal.
  destruct P as [[P _] | [P _]]; [rewrite P in Hi; cbn [length] in Hi; lia |]. rewrite i32_id by (unfold in_i32; lia). reflexivity.
Qed.

(** ** Segments *)

Lemma seg_start_0 : forall sty, seg_start sty 0 = 0%nat.
Proof. intros sty. unfold seg_start. destruct (termall sty), (lazy sty); reflexivity. Qed.
Lemma seg_start_lt   : forall sty j, (seg_start sty j < seg_start sty (S j))%nat.
Proof.
  intros sty j. unfold seg_start. destruct (termall sty); [lia |]. destruct (lazy sty); [| lia]. destruct j as [| j]; [lia |].
  assert (D := Nat.div_mod j 2 ltac:(lia)). assert (M := Nat.mod_upper_bound j 2 ltac:(lia)).
  assert (D' := Nat.div_mod (S j) 2 ltac:(lia)). assert (M' := Nat.mod_upper_bound (S j) 2 ltac:(lia)). lia.
Qed.
Lemma seg_start_mono : forall sty i j, (i <= j)%nat -> (seg_start sty i <= seg_start sty j)%nat.
Proof. intros sty i j H. induction H; [lia |]. pose proof (seg_start_lt sty m). lia. Qed.
Lemma seg_start_inj : forall sty i j, (seg_start sty i < seg_start sty j)%nat -> (i < j)%nat.
Proof. intros sty i j H. destruct (Nat.lt_ge_cases i j) as [L | L]; [exact L |]. pose proof (seg_start_mono sty j i L). lia. Qed.

Section Segments.
  Variables (sty numbps : Z) (rates : list Z).
  Let P := length rates.
  Hypothesis Hn : 1 <= numbps <= 37.
  Hypothesis HP : P = Z.to_nat (3 * numbps - 2).

  Definition entry (top j : nat) : Z * Z :=
    let e := Nat.min top (seg_start sty (S j)) in (rate_upto rates e - rate_upto rates (seg_start sty j), Z.of_nat (e - seg_start sty j)).

  Lemma term_ends : forall a, (a < P)%nat -> (is_term sty numbps a = true <-> S a = P \/ ends sty a).
  Proof.
    intros a Ha. destruct (Nat.eq_dec (S a) P) as [E | E].
    - split; [left; exact E |]. intros _. unfold is_term. replace (pass_type a) with 2%nat. replace (pass_bpno numbps a) with 0; [reflexivity |].
      + unfold pass_bpno. assert (D := Nat.div_mod (a + 2) 3 ltac:(lia)). assert (M := Nat.mod_upper_bound (a + 2) 3 ltac:(lia)). lia.
      + unfold pass_type. assert (D := Nat.div_mod (a + 2) 3 ltac:(lia)). assert (M := Nat.mod_upper_bound (a + 2) 3 ltac:(lia)). lia.
    - rewrite (c20_term_flags sty numbps a) by lia. tauto.
  Qed.

  Lemma segments_entries : forall m a i, m = (P - a)%nat -> (a <= P)%nat -> (seg_start sty i <= a)%nat -> (a < P -> a < seg_start sty (S i))%nat -> (a = P -> seg_start sty i = P)%nat ->
    exists c, segments (rate_upto rates (seg_start sty i)) (Z.of_nat (a - seg_start sty i)) (skipn a rates) (map (is_term sty numbps) (seq a m)) = map (entry P) (seq i c) /\
      (P <= seg_start sty (i + c))%nat /\ (forall j, (i <= j < i + c)%nat -> (seg_start sty j < P)%nat).
  Proof.
    induction m as [| m IH]; intros a i Hm Ha Hi Hs He.
    - exists 0%nat. assert (a = P) by lia. rewrite skipn_all2 by (fold P; lia). rewrite Nat.add_0_r. split; [reflexivity |]. split; [rewrite He by assumption; lia | intros; lia].
    - assert (La : (a < P)%nat) by lia. specialize (Hs La).
      assert (Es : skipn a rates = nth a rates 0 :: skipn (S a) rates).
      { clear - La. revert La. unfold P. generalize a. clear. induction rates as [| r l IH]; intros a La; cbn [length] in La; [lia |]. destruct a as [| a]; [reflexivity |]. cbn [skipn nth]. apply IH. lia. }
      rewrite Es. cbn [seq map segments]. destruct (is_term sty numbps a) eqn:Et.
      + assert (Eb : Nat.min P (seg_start sty (S i)) = S a).
        { apply term_ends in Et; [| exact La]. destruct Et as [Et | [j Ej]]; [lia |]. assert (S j = S i)%nat as Hj; [| rewrite Hj in Ej; lia].
          pose proof (seg_start_inj sty i (S j) ltac:(lia)). pose proof (seg_start_lt sty j). destruct (Nat.lt_ge_cases (S i) (S j)) as [L | L]; [| lia]. pose proof (seg_start_mono sty (S i) j ltac:(lia)). lia. }
        assert (Ee : (nth a rates 0 - rate_upto rates (seg_start sty i), Z.of_nat (a - seg_start sty i) + 1) = entry P i).
        { unfold entry. cbv zeta. rewrite Eb. cbn [rate_upto]. f_equal. lia. }
        rewrite Ee. destruct (Nat.eq_dec (S a) P) as [L | L].
        * exists 1%nat. rewrite skipn_all2 by (fold P; lia). split; [reflexivity |]. rewrite Nat.add_1_r. split; [lia |]. intros j Hj. assert (j = i) by lia. subst j. lia.
        * assert (Eb' : seg_start sty (S i) = S a) by lia.
          destruct (IH (S a) (S i) ltac:(lia) ltac:(lia) ltac:(lia)) as (c & C1 & C2 & C3); [intros; pose proof (seg_start_lt sty (S i)); lia | lia |].
          rewrite Eb', Nat.sub_diag in C1. cbn [rate_upto Z.of_nat] in C1. exists (S c). rewrite C1. cbn [seq map]. split; [reflexivity |]. replace (i + S c)%nat with (S i + c)%nat by lia. split; [exact C2 |].
          intros j Hj. destruct (Nat.eq_dec j i) as [-> | Ne]; [lia | apply C3; lia].
      + assert (La' : (S a < P)%nat). { destruct (Nat.eq_dec (S a) P) as [E |]; [| lia]. assert (is_term sty numbps a = true) by (apply term_ends; [exact La | left; exact E]). congruence. }
        assert (Lb : (S a < seg_start sty (S i))%nat). { destruct (Nat.eq_dec (S a) (seg_start sty (S i))) as [E |]; [| lia]. assert (is_term sty numbps a = true) by (apply term_ends; [exact La | right; exists i; exact E]). congruence. }
        destruct (IH (S a) i ltac:(lia) ltac:(lia) ltac:(lia) ltac:(lia) ltac:(lia)) as (c & C1 & C2 & C3). exists c.
        replace (Z.of_nat (a - seg_start sty i) + 1) with (Z.of_nat (S a - seg_start sty i)) by lia. rewrite C1. split; [reflexivity |]. split; assumption.
  Qed.

  Lemma segments_all : exists c, segments 0 0 rates (map (is_term sty numbps) (seq 0 P)) = map (entry P) (seq 0 c) /\
    (P <= seg_start sty c)%nat /\ (forall j, (j < c)%nat -> (seg_start sty j < P)%nat).
  Proof.
    pose proof (seg_start_lt sty 0) as L. rewrite seg_start_0 in L.
    destruct (segments_entries P 0 0 ltac:(lia) ltac:(lia) ltac:(rewrite seg_start_0; lia) ltac:(lia) ltac:(lia)) as (c & C1 & C2 & C3).
    rewrite seg_start_0 in C1. exists c. split; [exact C1 |]. split; [exact C2 |]. intros j Hj. apply C3. lia.
  Qed.
End Segments.

(** ** Through the packets *)

(** What no packet changes: a block that is in none has no bit-planes, and one
    that is in some has a chunk. *)
Definition sound (d : dblk) : Prop := (d_numsegs d = 0%nat -> d_numbps d = 0) /\ (d_numsegs d <> 0%nat -> d_chunks d <> []).

Lemma lsum_passes : forall (F : nat -> pass) (r : nat -> Z) m s P, (s + m <= P)%nat -> (forall i, (s <= i < s + m)%nat -> p_len (F i) = r (S i) - r i) ->
  lsum (firstn m (skipn s (map F (seq 0 P)))) = r (s + m)%nat - r s.
Proof.
  intros F r m s P H HF. assert (E : firstn m (skipn s (map F (seq 0 P))) = map F (seq s m)).
  { replace P with (s + (m + (P - s - m)))%nat by lia. rewrite seq_app, map_app, seq_app, map_app. cbn [Nat.add].
    rewrite skipn_app, skipn_all2 by (rewrite map_length, seq_length; lia). rewrite map_length, seq_length, Nat.sub_diag. cbn [skipn app].
    rewrite firstn_app, map_length, seq_length, Nat.sub_diag, firstn_O, app_nil_r, firstn_all2 by (rewrite map_length, seq_length; lia). reflexivity. }
  rewrite E. clear E H. revert s HF. induction m as [| m IH]; intros s HF; cbn [seq map lsum fold_right]; [rewrite Nat.add_0_r; lia |].
  unfold lsum in IH. rewrite IH by (intros i Hi; apply HF; lia). rewrite HF by lia. replace (S s + m)%nat with (s + S m)%nat by lia. lia.
Qed.

Lemma pass_lens_nth : forall rates i, (i < length rates)%nat -> nth i (pass_lens rates) 0 = u32 (rate_upto rates (S i) - rate_upto rates i).
Proof.
  intros rates i Hi. unfold pass_lens. set (f := fun k => u32 (rate_upto rates (S k) - rate_upto rates k)).
  rewrite (nth_indep _ 0 (f 0%nat)) by (rewrite map_length, seq_length; exact Hi). rewrite map_nth, seq_nth by exact Hi. reflexivity.
Qed.

Lemma bytes_app : forall a b, bytes_of (a ++ b) = bytes_of a + bytes_of b.
Proof. induction a as [| c a IH]; intros b; unfold bytes_of in *; cbn [app fold_right]; [lia |]. rewrite IH. lia. Qed.
Lemma passes_app : forall a b, passes_of (a ++ b) = passes_of a + passes_of b.
Proof. induction a as [| c a IH]; intros b; unfold passes_of in *; cbn [app fold_right]; [lia |]. rewrite IH. lia. Qed.

Lemma entries_sum : forall sty rates p J, (forall j, (j < J)%nat -> (seg_start sty j < p)%nat) ->
  bytes_of (map (entry sty rates p) (seq 0 J)) = rate_upto rates (Nat.min p (seg_start sty J)) /\
  passes_of (map (entry sty rates p) (seq 0 J)) = Z.of_nat (Nat.min p (seg_start sty J)).
Proof.
  intros sty rates p J. induction J as [| J IH]; intros H.
  - rewrite seg_start_0, Nat.min_0_r. split; reflexivity.
  - destruct (IH (fun j Hj => H j (Nat.lt_lt_succ_r _ _ Hj))) as [I1 I2]. rewrite seq_S, map_app, bytes_app, passes_app, I1, I2. cbn [Nat.add map]. unfold bytes_of, passes_of. cbn [fold_right fst snd entry].
    pose proof (H J ltac:(lia)). pose proof (seg_start_lt sty J). rewrite Nat.min_r by lia. split; lia.
Qed.

Lemma block_through : forall start w h orient sty bits x m r k cuts n nb d,
  Fits w h orient start bits x m -> encoded start w h orient sty x m = Some k -> 0 <= r -> r + bits <= 30 -> r = 0 \/ Z.land sty CBLKSTY_LAZY = 0 ->
  Z.of_nat (length (k_data k)) < 2 ^ 25 -> ascending 0 cuts (length (k_rates k)) -> bits <= nb <= 990 -> (n <= length cuts)%nat ->
  let p := cut cuts n in (p = 0 \/ p = length (k_rates k) \/ ends sty (p - 1))%nat ->
  T2PacketSpec.known sty n nb (coded_block k cuts) d -> sound d ->
  exists v, decode_block w h orient r sty d = Some v /\
    forall a b, 0 <= a < w -> 0 <= b < h -> exists q, 0 <= q /\ plane_known (Z.of_nat (length (k_rates k)) - Z.of_nat p) q /\ output r (v (b * w + a)) = rebuilt (x a b) q.
Proof.
  intros start w h orient sty bits x m r k cuts n nb d F E Hr Hrb Hraw Hd Hcuts Hnb Hn p Hp Hk [So1 So2].
  pose proof (coded_ok _ _ _ _ _ _ _ _ _ F E) as C. pose proof (fit_bits _ _ _ _ _ _ _ F) as Hbits.
  rewrite (coded_block_is sty bits k cuts C ltac:(lia)) in Hk. pose proof C as [Pl Te Ra By].
  assert (Hlow : - 6 < i32 (k_numbps k) <= bits /\ (k_rates k <> [] -> i32 (k_numbps k) = k_numbps k)).
  { destruct Pl as [[P0 [P1 | P1]] | [P1 P2]].
    - rewrite P1. change (i32 0) with 0. split; [lia | reflexivity].
    - rewrite i32_big by lia. split; [lia | rewrite P0; congruence].
    - rewrite i32_id by (unfold in_i32; lia). split; [lia | reflexivity]. }
  destruct Hlow as [Hlow Hsame].
  destruct (c20_blocks sty (i32 (k_numbps k)) nb (k_rates k) (k_data k) cuts Ra By Hd Hcuts) as [_ Hc]; [| lia | lia |].
  { destruct Pl as [[P0 _] | [P1 P2]]; [left; split; [exact P0 | lia] | right]. rewrite i32_id by (unfold in_i32; lia). split; [lia | exact P2]. }
  specialize (Hc n Hn). fold p in Hc. destruct Hc as [Ht Hco]. unfold T2PacketSpec.known in Hk. cbv zeta in Hk. rewrite Ht, Hco in Hk.
  destruct Hk as (K1 & K2 & K3 & K4 & K5). set (P := length (k_rates k)) in *.
  assert (HpP : (p <= P)%nat).
  { unfold p, cut. destruct n as [| n]; [cbn; lia |]. cbn [nth]. pose proof (cut_steps cuts 0 P n Hcuts ltac:(lia)). lia. }
  destruct (trip start w h orient sty bits x m r F Hr Hrb Hraw) as (k' & E' & T). assert (k' = k) as -> by congruence. clear E'.
  destruct (Nat.eq_dec p 0) as [Ep | Ep].
  - (* in no layer *)
    assert (J0 : d_numsegs d = 0%nat). { destruct (d_numsegs d) as [| J]; [reflexivity |]. destruct (K1 0%nat) as [_ K]. specialize (K ltac:(lia)). lia. }
    destruct (T 0%nat (fun _ => 0)) as (v & D & _ & _ & _ & V); [intros i Hi; cbn [firstn fold_right] in Hi; lia |].
    cbn [firstn] in D, V. assert (Ev : v = fun _ => 0).
    { unfold decode_cblk in D. destruct (31 <=? _); [discriminate |]. cbn [negb dec_segments] in D. congruence. }
    exists v. split.
    + unfold decode_block. rewrite K2, J0, (So1 J0). cbn [firstn map]. unfold decode_cblk. rewrite Z.add_0_r. unfold u32. rewrite Z.mod_small, i32_id by (unfold in_i32; lia).
      destruct (Z.leb_spec 31 r); [lia |]. cbn [dec_segments]. rewrite Ev. destruct (negb (negb _)); reflexivity.
    + intros a b Ha Hb. destruct (V a b Ha Hb) as (q & Q1 & Q2 & Q3). exists q. split; [exact Q1 |]. split; [| exact Q3]. rewrite Ep. exact Q2.
  - destruct Pl as [[P0 _] | [P1 P2]]; [unfold P in HpP; rewrite P0 in HpP; cbn [length] in HpP; lia |]. fold P in P2.
    destruct (K3 Ep) as [Kn _]. unfold make_block in Kn. cbn [e_numbps] in Kn. rewrite i32_id in Kn by (unfold in_i32; lia).
    set (J := d_numsegs d) in *.
    destruct (segments_all sty (k_numbps k) (k_rates k) ltac:(lia) P2) as (c & C1 & C2 & C3). fold P in C1, C2, C3.
    assert (Ec : T1Props.cuts k = map (entry sty (k_rates k) P) (seq 0 c)) by (unfold T1Props.cuts; rewrite Te; exact C1).
    assert (Bd : forall j, (seg_start sty j < p)%nat -> Nat.min p (seg_start sty (S j)) = Nat.min P (seg_start sty (S j))).
    { intros j Hj. destruct Hp as [Hp | [-> | [i Hi]]]; [lia | reflexivity |]. replace (S (p - 1)) with p in Hi by lia.
      pose proof (seg_start_inj sty j (S i) ltac:(lia)). pose proof (seg_start_mono sty (S j) (S i) ltac:(lia)). lia. }
    assert (LJ : forall j, (j < J)%nat -> (seg_start sty j < p)%nat) by (intros j Hj; apply K1, Hj).
    assert (Jp : (p <= seg_start sty J)%nat) by (destruct (Nat.lt_ge_cases (seg_start sty J) p) as [L | L]; [apply K1 in L; lia | exact L]).
    assert (Jc : (J <= c)%nat). { destruct (Nat.lt_ge_cases c J) as [L | L]; [| exact L]. specialize (LJ c L). lia. }
    assert (Ef : firstn J (T1Props.cuts k) = map (entry sty (k_rates k) p) (seq 0 J)).
    { rewrite Ec. replace c with (J + (c - J))%nat by lia. rewrite seq_app, map_app, firstn_app, map_length, seq_length, Nat.sub_diag, firstn_O, app_nil_r, firstn_all2 by (rewrite map_length, seq_length; lia).
      apply map_ext_in. intros j Hj. apply in_seq in Hj. unfold entry. cbv zeta. rewrite (Bd j) by (apply LJ; lia). reflexivity. }
    destruct (entries_sum sty (k_rates k) p J LJ) as [Sb Sp]. rewrite Nat.min_l in Sb, Sp by lia.
    assert (RU : forall a b, (a <= b <= P)%nat -> 0 <= rate_upto (k_rates k) a <= rate_upto (k_rates k) b /\ rate_upto (k_rates k) b <= Z.of_nat (length (k_data k))).
    { intros a b Hab. destruct a as [| a], b as [| b]; cbn [rate_upto]; try lia.
      - pose proof (Ra b b ltac:(fold P; lia)). lia.
      - apply Ra. fold P. lia. }
    assert (Eseg : map (fun s => (s_len s, s_real s)) (firstn J (d_segs d)) = firstn J (T1Props.cuts k)).
    { rewrite Ef.
      assert (LS : (J <= length (d_segs d))%nat).
      { destruct (Nat.le_gt_cases J (length (d_segs d))) as [L | L]; [exact L |]. destruct (K4 (length (d_segs d)) L) as [R _]. rewrite nth_overflow in R by lia. cbn [s_real seg0] in R.
        pose proof (LJ _ L). pose proof (seg_start_lt sty (length (d_segs d))). lia. }
      apply (nth_ext _ _ (0, 0) (0, 0)); [rewrite !map_length, firstn_length, seq_length; lia |]. intros j Hj. rewrite map_length, firstn_length in Hj.
      change (0, 0) with ((fun s => (s_len s, s_real s)) seg0) at 1. rewrite map_nth. rewrite (nth_indep (map (entry sty (k_rates k) p) (seq 0 J)) (0, 0) (entry sty (k_rates k) p 0)) by (rewrite map_length, seq_length; lia).
      rewrite map_nth, seq_nth by lia. cbn [Nat.add]. assert (Hj' : (j < J)%nat) by lia.
      assert (En : nth j (firstn J (d_segs d)) seg0 = nth j (d_segs d) seg0).
      { rewrite <- (firstn_skipn J (d_segs d)) at 2. rewrite app_nth1 by (rewrite firstn_length; lia). reflexivity. }
      rewrite En. destruct (K4 j Hj') as [R1 R2]. rewrite R1, R2. unfold entry. cbv zeta. f_equal. pose proof (LJ j Hj'). pose proof (seg_start_lt sty j).
      unfold make_block. cbn [e_pass]. fold P. rewrite (lsum_passes _ (rate_upto (k_rates k))); [f_equal; f_equal; lia | lia |].
      intros i Hi. cbn [p_len]. rewrite pass_lens_nth by (fold P; lia). destruct (RU i (S i) ltac:(lia)). unfold u32. apply Z.mod_small. lia. }
    destruct (T J (fun i => nth (Z.to_nat i) (concat (d_chunks d)) 0)) as (v & D & _ & _ & _ & V).
    { intros i Hi. change (0 <= i < bytes_of (firstn J (T1Props.cuts k))) in Hi. rewrite Ef, Sb in Hi. rewrite K5. destruct (RU p P ltac:(lia)).
      rewrite <- (firstn_skipn (Z.to_nat (rate_upto (k_rates k) p)) (k_data k)) at 2. rewrite app_nth1; [reflexivity |]. rewrite firstn_length. lia. }
    exists v. split.
    + unfold decode_block. rewrite K2, Eseg, Kn. fold J. assert (J <> 0%nat) as J0 by (pose proof (seg_start_0 sty); intros J0; rewrite J0 in Jp; lia). specialize (So2 J0). destruct (d_chunks d); [contradiction |]. exact D.
    + intros a b Ha Hb. destruct (V a b Ha Hb) as (q & Q1 & Q2 & Q3). exists q. split; [exact Q1 |]. split; [| exact Q3]. rewrite Ef, Sp in Q2. exact Q2.
Qed.
