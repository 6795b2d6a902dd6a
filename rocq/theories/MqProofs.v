(** Facts about the MQ coder model: the encoder's interval only shrinks, and
    the bytes it finally writes identify it. *)

From Coq Require Import ZArith List Lia Bool.
From Verif Require Import Ints Mem MqModel.
Import ListNotations.
Local Open Scope Z_scope.

(** ** The state table *)

Definition row_ok (r : Z * Z * Z * Z) : bool :=
  let '(q, m, x, y) := r in (1 <=? q) && (q <=? 0x5601) && (0 <=? m) && (m <=? 1) && (0 <=? x) && (x <? 94) && (0 <=? y) && (y <? 94).

Lemma table_ok : forall i, 0 <= i < 94 ->
  1 <= qe_of i <= 0x5601 /\ 0 <= mps_of i <= 1 /\ 0 <= nmps_of i < 94 /\ 0 <= nlps_of i < 94.
Proof.
  intros i Hi. unfold qe_of, mps_of, nmps_of, nlps_of, state_at.
  assert (A : forallb row_ok mqc_states = true) by (vm_compute; reflexivity).
  assert (B : row_ok (nth (Z.to_nat i) mqc_states (0, 0, 0, 0)) = true).
  { rewrite forallb_forall in A. apply A, nth_In. change (length mqc_states) with 94%nat. lia. }
  destruct (nth (Z.to_nat i) mqc_states (0, 0, 0, 0)) as [[[q m] x] y]. unfold row_ok in B. cbn [fst snd].
  repeat (apply andb_prop in B; destruct B as [B ?]). rewrite ?Z.leb_le, ?Z.ltb_lt in *. lia.
Qed.

(** ** Words *)

Lemma bit_test : forall n x, 0 <= n -> 0 <= x < 2 ^ (n + 1) -> (Z.land x (2 ^ n) =? 0) = (x <? 2 ^ n).
Proof.
  intros n x Hn Hx. rewrite Z.pow_add_r in Hx by lia. change (2 ^ 1) with 2 in Hx.
  assert (P : 0 < 2 ^ n) by (apply Z.pow_pos_nonneg; lia).
  assert (E : Z.land x (2 ^ n) = if Z.testbit x n then 2 ^ n else 0).
  { apply Z.bits_inj'. intros k Hk. rewrite Z.land_spec, Z.pow2_bits_eqb by lia.
    destruct (Z.eqb_spec n k) as [-> | Hne].
    - destruct (Z.testbit x k) eqn:T; cbn [andb]; [rewrite Z.pow2_bits_true by lia; reflexivity | rewrite Z.bits_0; reflexivity].
    - rewrite andb_false_r. destruct (Z.testbit x n); [rewrite Z.pow2_bits_false by lia; reflexivity | rewrite Z.bits_0; reflexivity]. }
  rewrite E. assert (B : Z.testbit x n = negb (x <? 2 ^ n)).
  { rewrite Z.testbit_odd, Z.shiftr_div_pow2 by lia. destruct (Z.ltb_spec x (2 ^ n)).
    - rewrite Z.div_small by lia. reflexivity.
    - replace (x / 2 ^ n) with 1; [reflexivity |]. apply Z.div_unique with (x - 2 ^ n); lia. }
  rewrite B. destruct (Z.ltb_spec x (2 ^ n)); cbn [negb]; [reflexivity |]. apply Z.eqb_neq. lia.
Qed.

Lemma bit27 : forall x, 0 <= x < 2 ^ 28 -> (Z.land x 0x8000000 =? 0) = (x <? 2 ^ 27).
Proof. intros x H. apply (bit_test 27); [lia | exact H]. Qed.
Lemma bit15 : forall x, 0 <= x < 2 ^ 16 -> (Z.land x 0x8000 =? 0) = (x <? 2 ^ 15).
Proof. intros x H. apply (bit_test 15); [lia | exact H]. Qed.

Lemma mask20 : forall x, Z.land x 0xFFFFF = x mod 2 ^ 20.
Proof. intros x. apply (Z.land_ones x 20). lia. Qed.
Lemma mask19 : forall x, Z.land x 0x7FFFF = x mod 2 ^ 19.
Proof. intros x. apply (Z.land_ones x 19). lia. Qed.
Lemma mask27 : forall x, Z.land x 0x7FFFFFF = x mod 2 ^ 27.
Proof. intros x. apply (Z.land_ones x 27). lia. Qed.

Lemma shl_id : forall x n, 0 <= n -> 0 <= x * 2 ^ n < 2 ^ 32 -> shl x n = x * 2 ^ n.
Proof. intros x n Hn H. unfold shl. rewrite Z.shiftl_mul_pow2 by exact Hn. apply u32_id. exact H. Qed.

Lemma p2 : forall n, 0 <= n -> 0 < 2 ^ n.
Proof. intros. apply Z.pow_pos_nonneg; lia. Qed.

(** ** Byte output *)

Definition bytes (m : mem) : Prop := forall i, 0 <= m i <= 255.
Definition kk (b : Z) : Z := if b =? 255 then 7 else 8.

Lemma bytes_upd : forall m i x, bytes m -> bytes (upd m i (x mod 256)).
Proof.
  intros m i x H k. unfold upd. destruct (k =? i); [| apply H]. pose proof (Z.mod_pos_bound x 256). lia.
Qed.

Lemma byteout_cases : forall start s, exists s0,
  byteout start s = (if (cur s =? 255) || (negb (Z.land (c s) 0x8000000 =? 0) && ((cur s + 1) mod 256 =? 255)) then emit7 s0 else emit8 s0) /\
  a s0 = a s /\ bp s0 = bp s /\ ctxs s0 = ctxs s /\ ok s0 = ok s && (start - 1 <=? bp s) /\
  ((cur s =? 255) || (Z.land (c s) 0x8000000 =? 0) = true -> buf s0 = buf s /\ c s0 = c s) /\
  ((cur s =? 255) || (Z.land (c s) 0x8000000 =? 0) = false -> buf s0 = upd (buf s) (bp s) ((cur s + 1) mod 256) /\
     c s0 = if (cur s + 1) mod 256 =? 255 then Z.land (c s) 0x7FFFFFF else c s).
Proof.
  intros start s. unfold byteout. change (cur (check (start - 1 <=? bp s) s)) with (cur s).
  change (c (check (start - 1 <=? bp s) s)) with (c s). destruct (cur s =? 255) eqn:E1; cbn [orb].
  - exists (check (start - 1 <=? bp s) s). split; [reflexivity |]. repeat (split; [reflexivity |]).
    split; [intros _; split; reflexivity | discriminate].
  - destruct (Z.land (c s) 134217728 =? 0) eqn:E2; cbn [negb andb orb].
    + exists (check (start - 1 <=? bp s) s). split; [reflexivity |]. repeat (split; [reflexivity |]).
      split; [intros _; split; reflexivity | discriminate].
    + set (s1 := write_byte (check (start - 1 <=? bp s) s) (cur s + 1)).
      assert (Ec : cur s1 = (cur s + 1) mod 256) by (unfold cur at 1, s1, write_byte, check; cbn [bp buf]; apply upd_same).
      rewrite Ec. destruct ((cur s + 1) mod 256 =? 255).
      * exists (set_c s1 (Z.land (c s1) 134217727)). split; [reflexivity |]. repeat (split; [reflexivity |]).
        split; [discriminate |]. intros _. split; reflexivity.
      * exists s1. split; [reflexivity |]. repeat (split; [reflexivity |]).
        split; [discriminate |]. intros _. split; reflexivity.
Qed.

Lemma byteout_ct : forall start s k, byteout start (set_ct s k) = byteout start s.
Proof.
  intros start s k. unfold byteout. change (cur (check (start - 1 <=? bp (set_ct s k)) (set_ct s k))) with (cur s).
  change (cur (check (start - 1 <=? bp s) s)) with (cur s).
  change (c (check (start - 1 <=? bp (set_ct s k)) (set_ct s k))) with (c s). change (c (check (start - 1 <=? bp s) s)) with (c s).
  destruct (cur s =? 255); [reflexivity |]. destruct (Z.land (c s) 134217728 =? 0); [reflexivity |].
  change (cur (write_byte (check (start - 1 <=? bp (set_ct s k)) (set_ct s k)) (cur s + 1)))
    with (cur (write_byte (check (start - 1 <=? bp s) s) (cur s + 1))).
  destruct (_ =? 255); reflexivity.
Qed.

Lemma byteout_frame : forall start s, let s' := byteout start s in
  bp s' = bp s + 1 /\ a s' = a s /\ ctxs s' = ctxs s /\ ok s' = ok s && (start - 1 <=? bp s) /\
  (forall i, i < bp s -> buf s' i = buf s i) /\ (forall i, bp s + 1 < i -> buf s' i = buf s i) /\ (bytes (buf s) -> bytes (buf s')).
Proof.
  intros start s. cbn zeta. destruct (byteout_cases start s) as (s0 & -> & Ea & Eb & Ex & Eo & N & C).
  assert (G : (forall i, i < bp s -> buf s0 i = buf s i) /\ (forall i, bp s + 1 < i -> buf s0 i = buf s i) /\ (bytes (buf s) -> bytes (buf s0))).
  { destruct (_ || (_ =? 0)).
    - destruct (N eq_refl) as [-> _]. auto.
    - destruct (C eq_refl) as [-> _]. split; [intros; apply upd_other; lia |]. split; [intros; apply upd_other; lia |].
      intros Hb. apply bytes_upd, Hb. }
  destruct G as (G1 & G2 & G3).
  destruct (_ || (_ && _)); unfold emit7, emit8; cbn [c a ct bp buf ctxs ok]; rewrite Ea, Eb, Ex, Eo;
    (split; [reflexivity |]; split; [reflexivity |]; split; [reflexivity |]; split; [reflexivity |];
     split; [intros i Hi; rewrite upd_other by lia; apply G1; exact Hi |]; split; [intros i Hi; rewrite upd_other by lia; apply G2; exact Hi |];
     intros Hb; apply bytes_upd, G3, Hb).
Qed.

(** The byte before last may receive a carry; the value is preserved; after an
    0xFF only 7 bits are taken. *)
Lemma byteout_value : forall start s, bytes (buf s) -> 0 <= c s < 2 ^ 27 + 2 ^ 24 ->
  let s' := byteout start s in let v := buf s' (bp s) in
  (v = cur s \/ cur s <> 255 /\ v = cur s + 1) /\ ct s' = kk v /\ 0 <= c s' < 2 ^ (27 - ct s') /\
  cur s * 2 ^ 27 + c s = v * 2 ^ 27 + cur s' * 2 ^ (27 - ct s') + c s'.
Proof.
  intros start s Hb Hc. cbn zeta. assert (Hcur : 0 <= cur s <= 255) by apply Hb.
  assert (D : forall x n, 0 < n -> x = (x / n) * n + x mod n /\ 0 <= x mod n < n).
  { clear. intros x n Hn. pose proof (Z.div_mod x n). pose proof (Z.mod_pos_bound x n Hn). lia. }
  destruct (byteout_cases start s) as (s0 & -> & _ & Eb & _ & _ & N & C).
  rewrite bit27 in * by lia. destruct (Z.eqb_spec (cur s) 255) as [E | E]; [| destruct (Z.ltb_spec (c s) (2 ^ 27)) as [L | L]];
    cbn [negb andb orb] in *.
  - destruct (N eq_refl) as [Nb Nc]. unfold emit7 at 1 2 3 4 5 6 7 8. unfold cur at 5. unfold emit7. cbn [c ct bp buf].
    rewrite Eb, Nb, Nc. rewrite mask20, upd_same, upd_other by lia. fold (cur s). rewrite E. change (kk 255) with 7. change (27 - 7) with 20.
    rewrite Z.shiftr_div_pow2 by lia. destruct (D (c s) (2 ^ 20)) as [D1 D2]; [lia |].
    assert (0 <= c s / 2 ^ 20 < 144) by (split; [apply Z.div_pos; lia | apply Z.div_lt_upper_bound; lia]).
    rewrite (Z.mod_small (c s / 2 ^ 20)) by lia. split; [left; reflexivity |]. split; [reflexivity |]. lia.
  - destruct (N eq_refl) as [Nb Nc]. unfold cur at 5. unfold emit8. cbn [c ct bp buf].
    rewrite Eb, Nb, Nc. rewrite mask19, upd_same, upd_other by lia. fold (cur s).
    assert (K : kk (cur s) = 8) by (unfold kk; destruct (Z.eqb_spec (cur s) 255); congruence).
    rewrite K. change (27 - 8) with 19.
    rewrite Z.shiftr_div_pow2 by lia. destruct (D (c s) (2 ^ 19)) as [D1 D2]; [lia |].
    assert (0 <= c s / 2 ^ 19 < 256) by (split; [apply Z.div_pos; lia | apply Z.div_lt_upper_bound; lia]).
    rewrite (Z.mod_small (c s / 2 ^ 19)) by lia. split; [left; reflexivity |]. split; [reflexivity |]. lia.
  - destruct (C eq_refl) as [Cb Cc]. rewrite (Z.mod_small (cur s + 1)) in * by lia.
    destruct (Z.eqb_spec (cur s + 1) 255) as [F | F].
    + unfold cur at 5. unfold emit7. cbn [c ct bp buf]. rewrite Eb, Cb, Cc.
      rewrite upd_same, (upd_other _ (bp s + 1)), upd_same by lia. rewrite F. change (kk 255) with 7. change (27 - 7) with 20.
      rewrite mask20, mask27. replace (c s mod 2 ^ 27) with (c s - 2 ^ 27) by (apply Z.mod_unique with 1; lia).
      rewrite Z.shiftr_div_pow2 by lia. destruct (D (c s - 2 ^ 27) (2 ^ 20)) as [D1 D2]; [lia |].
      assert (0 <= (c s - 2 ^ 27) / 2 ^ 20 < 16) by (split; [apply Z.div_pos; lia | apply Z.div_lt_upper_bound; lia]).
      rewrite (Z.mod_small ((c s - 2 ^ 27) / 2 ^ 20)) by lia. split; [right; lia |]. split; [reflexivity |]. lia.
    + unfold cur at 5. unfold emit8. cbn [c ct bp buf]. rewrite Eb, Cb, Cc.
      rewrite upd_same, (upd_other _ (bp s + 1)), upd_same by lia.
      assert (K : kk (cur s + 1) = 8) by (unfold kk; destruct (Z.eqb_spec (cur s + 1) 255); congruence).
      rewrite K. change (27 - 8) with 19. rewrite mask19. rewrite Z.shiftr_div_pow2 by lia.
      destruct (D (c s) (2 ^ 19)) as [D1 D2]; [lia |].
      assert (G : c s / 2 ^ 19 = 256 + (c s - 2 ^ 27) / 2 ^ 19).
      { replace (c s) with (256 * 2 ^ 19 + (c s - 2 ^ 27)) at 1 by lia. rewrite Z.div_add_l by lia. reflexivity. }
      assert (0 <= (c s - 2 ^ 27) / 2 ^ 19 < 32) by (split; [apply Z.div_pos; lia | apply Z.div_lt_upper_bound; lia]).
      replace ((c s / 2 ^ 19) mod 256) with (c s / 2 ^ 19 - 256) by (apply Z.mod_unique with 1; lia).
      split; [right; lia |]. split; [reflexivity |]. lia.
Qed.

(** ** The value of a byte stream *)

(** Bits that byte [i + 1] adds, as the decoder sees it. *)
Definition sh (B : mem) (i : Z) : Z := if (B i =? 255) && (B (i + 1) <=? 143) then 7 else 8.

(** Bits and value of bytes [n], ..., [n + j], counted from the lowest bit of
    byte [n]. *)
Fixpoint T (B : mem) (n : Z) (j : nat) : Z :=
  match j with O => 0 | S j => T B n j + sh B (n + Z.of_nat j) end.
Fixpoint R (B : mem) (n : Z) (j : nat) : Z :=
  match j with O => B n | S j => R B n j * 2 ^ sh B (n + Z.of_nat j) + B (n + Z.of_nat (S j)) end.

Lemma sh_range : forall B i, 7 <= sh B i <= 8.
Proof. intros. unfold sh. destruct (_ && _); lia. Qed.

Lemma T_range : forall B n j, 0 <= T B n j <= 8 * Z.of_nat j.
Proof. intros B n j. induction j; cbn [T]; [lia |]. pose proof (sh_range B (n + Z.of_nat j)). lia. Qed.

Lemma T_front : forall B n j, T B n (S j) = sh B n + T B (n + 1) j.
Proof.
  intros B n j. induction j.
  - cbn [T]. replace (n + Z.of_nat 0) with n by lia. lia.
  - change (T B n (S (S j))) with (T B n (S j) + sh B (n + Z.of_nat (S j))). rewrite IHj.
    change (T B (n + 1) (S j)) with (T B (n + 1) j + sh B (n + 1 + Z.of_nat j)).
    replace (n + Z.of_nat (S j)) with (n + 1 + Z.of_nat j) by lia. lia.
Qed.

Lemma R_front : forall B n j, R B n (S j) = B n * 2 ^ T B n (S j) + R B (n + 1) j.
Proof.
  intros B n j. induction j.
  - cbn [R T]. replace (n + Z.of_nat 0) with n by lia. replace (n + Z.of_nat 1) with (n + 1) by lia.
    replace (0 + sh B n) with (sh B n) by lia. reflexivity.
  - change (R B n (S (S j))) with (R B n (S j) * 2 ^ sh B (n + Z.of_nat (S j)) + B (n + Z.of_nat (S (S j)))). rewrite IHj.
    change (T B n (S (S j))) with (T B n (S j) + sh B (n + Z.of_nat (S j))).
    change (R B (n + 1) (S j)) with (R B (n + 1) j * 2 ^ sh B (n + 1 + Z.of_nat j) + B (n + 1 + Z.of_nat (S j))).
    pose proof (T_range B n (S j)). pose proof (sh_range B (n + Z.of_nat (S j))). rewrite Z.pow_add_r by lia.
    replace (n + 1 + Z.of_nat j) with (n + Z.of_nat (S j)) by lia.
    replace (n + 1 + Z.of_nat (S j)) with (n + Z.of_nat (S (S j))) by lia. ring.
Qed.

(** ** Streams that continue a state *)

(** Weight of the lowest bit of the current byte, and the lower end of the
    interval in units of the register. *)
Definition W (s : mqc) : Z := 2 ^ (27 - ct s).
Definition low (s : mqc) : Z := cur s * W s + c s.

(** Stream [B] is one the encoder may end up with: it repeats the bytes so far,
    up to a carry into the last one, stays below the upper end of the interval,
    and is never behind the lower end by a unit of any later byte. *)
Record Claim (B : mem) (s : mqc) : Prop := mkClaim {
  cl_last : B (bp s) = cur s \/ cur s <> 255 /\ B (bp s) = cur s + 1;
  cl_prev : forall i, i < bp s -> B i = buf s i;
  cl_up : forall j, R B (bp s) j * W s < (low s + a s) * 2 ^ T B (bp s) j;
  cl_low : forall j, low s * 2 ^ T B (bp s) (S j) < (R B (bp s) (S j) + 1) * W s }.

Lemma claim_narrow : forall B s s', bp s' = bp s -> buf s' = buf s -> ct s' = ct s -> c s <= c s' -> c s' + a s' <= c s + a s ->
  Claim B s' -> Claim B s.
Proof.
  intros B s s' E1 E2 E3 H1 H2 [L P U D]. unfold low, cur, W in *. rewrite E1, E2, E3 in *. constructor.
  - exact L.
  - exact P.
  - intros j. specialize (U j). pose proof (p2 (T B (bp s) j) ltac:(apply T_range)). unfold low, cur, W. nia.
  - intros j. specialize (D j). pose proof (p2 (T B (bp s) (S j)) ltac:(apply T_range)). unfold low, cur, W. nia.
Qed.

(** Doubling the registers [k] times. *)
Lemma claim_shift : forall B s s' k, 0 <= k -> ct s <= 27 -> bp s' = bp s -> buf s' = buf s -> ct s' = ct s - k ->
  c s' = c s * 2 ^ k -> a s' = a s * 2 ^ k -> Claim B s' -> Claim B s.
Proof.
  intros B s s' k Hk Hct E1 E2 E3 E4 E5 [L P U D].
  assert (EW : W s' = W s * 2 ^ k).
  { unfold W. rewrite E3. replace (27 - (ct s - k)) with (27 - ct s + k) by lia. apply Z.pow_add_r; lia. }
  assert (EL : low s' = low s * 2 ^ k) by (unfold low; rewrite EW, E4; unfold cur; rewrite E1, E2; ring).
  unfold cur in *. rewrite E1, E2 in *. pose proof (p2 k Hk) as Pk. constructor.
  - exact L.
  - exact P.
  - intros j. specialize (U j). rewrite EW, EL, E5 in U.
    apply (Z.mul_lt_mono_pos_r (2 ^ k)); [exact Pk |].
    replace (R B (bp s) j * W s * 2 ^ k) with (R B (bp s) j * (W s * 2 ^ k)) by ring.
    replace ((low s + a s) * 2 ^ T B (bp s) j * 2 ^ k) with ((low s * 2 ^ k + a s * 2 ^ k) * 2 ^ T B (bp s) j) by ring. exact U.
  - intros j. specialize (D j). rewrite EW, EL in D.
    apply (Z.mul_lt_mono_pos_r (2 ^ k)); [exact Pk |].
    replace (low s * 2 ^ T B (bp s) (S j) * 2 ^ k) with (low s * 2 ^ k * 2 ^ T B (bp s) (S j)) by ring.
    replace ((R B (bp s) (S j) + 1) * W s * 2 ^ k) with ((R B (bp s) (S j) + 1) * (W s * 2 ^ k)) by ring. exact D.
Qed.

Lemma claim_byteout : forall B start s, bytes (buf s) -> ct s = 0 -> 0 <= c s -> 1 <= a s -> c s + a s <= 2 ^ 27 + 2 ^ 24 ->
  Claim B (byteout start s) ->
  Claim B s /\ sh B (bp s) = ct (byteout start s) /\ low s = B (bp s) * 2 ^ 27 + low (byteout start s).
Proof.
  intros B start s Hb Hct Hc Ha Hca [L P U D].
  destruct (byteout_frame start s) as (F1 & F2 & F3 & F4 & F5 & F6 & F7).
  destruct (byteout_value start s Hb ltac:(lia)) as (V1 & V2 & V3 & V4).
  set (s' := byteout start s) in *. specialize (F7 Hb).
  assert (EB : B (bp s) = buf s' (bp s)) by (apply P; lia).
  assert (Ek : sh B (bp s) = ct s').
  { unfold sh. rewrite EB, V2. unfold kk. destruct (Z.eqb_spec (buf s' (bp s)) 255) as [E | E]; cbn [andb]; [| reflexivity].
    assert (N : B (bp s + 1) < 144).
    { specialize (U O). cbn [R T] in U. rewrite F1 in U. unfold low, W in U. rewrite V2, E in U. change (kk 255) with 7 in U.
      rewrite V2, E in V3, V4. change (kk 255) with 7 in V3, V4. change (27 - 7) with 20 in *. rewrite F2 in U.
      assert (cur s' * 2 ^ 20 + c s' + a s <= 144 * 2 ^ 20); [| lia].
      destruct V1 as [V1 | [_ V1]]; lia. }
    destruct (Z.leb_spec (B (bp s + 1)) 143); [reflexivity | lia]. }
  assert (Hk : 7 <= ct s' <= 8) by (rewrite V2; unfold kk; destruct (_ =? _); lia).
  assert (EW : W s = W s' * 2 ^ ct s').
  { unfold W. rewrite Hct. rewrite <- Z.pow_add_r by lia. f_equal. lia. }
  assert (EW0 : W s = 2 ^ 27) by (unfold W; rewrite Hct; reflexivity).
  assert (EL : low s = B (bp s) * W s + low s').
  { unfold low at 1. rewrite EW0, V4, EB. unfold low, W. ring. }
  split; [constructor |].
  - rewrite EB. exact V1.
  - intros i Hi. rewrite P by lia. apply F5. exact Hi.
  - intros [| j].
    + cbn [R T]. rewrite EL. change (2 ^ 0) with 1. assert (0 <= low s').
      { unfold low, cur, W. pose proof (F7 (bp s')). pose proof (p2 (27 - ct s') ltac:(lia)). nia. }
      lia.
    + rewrite R_front. specialize (U j). rewrite F1 in U. rewrite EL, T_front, Ek. pose proof (T_range B (bp s + 1) j) as Tr.
      rewrite Z.pow_add_r by lia. set (p := 2 ^ ct s') in *. set (t := 2 ^ T B (bp s + 1) j) in *. set (r := R B (bp s + 1) j) in *.
      rewrite F2 in U. replace ((B (bp s) * (p * t) + r) * W s) with (B (bp s) * W s * (p * t) + r * W s' * p) by (rewrite EW; ring).
      replace ((B (bp s) * W s + low s' + a s) * (p * t)) with (B (bp s) * W s * (p * t) + (low s' + a s) * t * p) by ring.
      assert (0 < p) by (unfold p; apply p2; lia). apply Z.add_lt_mono_l. apply Z.mul_lt_mono_pos_r; assumption.
  - intros j. rewrite R_front, EL, T_front, Ek. pose proof (T_range B (bp s + 1) j) as Tr.
    rewrite Z.pow_add_r by lia. set (p := 2 ^ ct s') in *. assert (0 < p) by (unfold p; apply p2; lia).
    assert (DD : low s' * 2 ^ T B (bp s + 1) j < (R B (bp s + 1) j + 1) * W s').
    { destruct j as [| j].
      - cbn [T R]. change (2 ^ 0) with 1. unfold low. rewrite F1 in L. unfold cur in L |- *. rewrite F1 in L |- *. fold (W s') in V3. destruct L as [L | [_ L]]; rewrite L; [lia |].
        assert (0 < W s') by (unfold W; apply p2; lia). lia.
      - rewrite <- F1. apply D. }
    set (t := 2 ^ T B (bp s + 1) j) in *. set (r := R B (bp s + 1) j) in *.
    replace ((B (bp s) * (p * t) + r + 1) * W s) with (B (bp s) * W s * (p * t) + (r + 1) * W s' * p) by (rewrite EW; ring).
    replace ((B (bp s) * W s + low s') * (p * t)) with (B (bp s) * W s * (p * t) + low s' * t * p) by ring.
    apply Z.add_lt_mono_l. apply Z.mul_lt_mono_pos_r; assumption.
  - split; [exact Ek |]. rewrite EL, EW0. reflexivity.
Qed.

(** ** Encoder invariant *)

(** Between rounds: [lo <= a < hi]. *)
Record Inv (start lo hi : Z) (s : mqc) : Prop := mkInv {
  i_bytes : bytes (buf s);
  i_a : lo <= a s < hi;
  i_c : 0 <= c s;
  i_ct : 1 <= ct s <= 12;
  i_room : (c s + a s) * 2 ^ ct s <= 2 ^ 27 + 2 ^ 24;
  i_bp : start - 1 <= bp s;
  i_ctx : forall k, 0 <= ctxs s k < 94;
  i_clean : forall i, start <= i -> i + 1 < bp s -> buf s i = 255 -> buf s (i + 1) <= 143;
  i_after : start <= bp s - 1 -> buf s (bp s - 1) = 255 -> low s + a s <= 144 * W s;
  i_ok : ok s = true }.

Lemma inv_c : forall start lo hi s, 0 < lo -> Inv start lo hi s -> c s + a s <= 2 ^ 26 + 2 ^ 23.
Proof.
  intros start lo hi s Hlo [_ Ha Hc Hct Hr _ _ _ _ _]. assert (2 <= 2 ^ ct s) by (change 2 with (2 ^ 1) at 1; apply Z.pow_le_mono_r; lia).
  nia.
Qed.

(** Byte output keeps the invariant, except that [ct] starts again. *)
Lemma inv_byteout : forall start s, bytes (buf s) -> ct s = 0 -> 0 <= c s -> 1 <= a s <= 2 ^ 16 -> c s + a s <= 2 ^ 27 + 2 ^ 24 ->
  start - 1 <= bp s -> (forall k, 0 <= ctxs s k < 94) ->
  (forall i, start <= i -> i + 1 < bp s -> buf s i = 255 -> buf s (i + 1) <= 143) ->
  (start <= bp s - 1 -> buf s (bp s - 1) = 255 -> low s + a s <= 144 * W s) -> ok s = true ->
  Inv start 1 (2 ^ 16 + 1) (byteout start s).
Proof.
  intros start s Hb Hct Hc Ha Hca Hbp Hx Hcl Haf Hok.
  destruct (byteout_frame start s) as (F1 & F2 & F3 & F4 & F5 & F6 & F7).
  destruct (byteout_value start s Hb ltac:(lia)) as (V1 & V2 & V3 & V4).
  set (s' := byteout start s) in *. specialize (F7 Hb).
  assert (Hk : 7 <= ct s' <= 8) by (rewrite V2; unfold kk; destruct (_ =? _); lia).
  assert (Ew : 2 ^ 27 = 2 ^ (27 - ct s') * 2 ^ ct s') by (rewrite <- Z.pow_add_r by lia; f_equal; lia).
  constructor; rewrite ?F1, ?F2, ?F3; try assumption; try lia.
  - assert (2 ^ ct s' <= 2 ^ 8) by (apply Z.pow_le_mono_r; lia). pose proof (p2 (ct s') ltac:(lia)).
    assert ((c s' + a s) * 2 ^ ct s' <= (2 ^ (27 - ct s') + 2 ^ 16) * 2 ^ ct s') by (apply Z.mul_le_mono_nonneg_r; lia).
    rewrite Z.mul_add_distr_r in H1. change (2 ^ 24) with (2 ^ 16 * 2 ^ 8). rewrite Ew. nia.
  - intros i Hi Hi1 E. destruct (Z.eq_dec (i + 1) (bp s)) as [E1 | E1].
    + rewrite E1. rewrite F5 in E by lia. assert (Eb : bp s - 1 = i) by lia. rewrite Eb in Haf. specialize (Haf Hi E).
      unfold low, W in Haf. rewrite Hct in Haf. change (27 - 0) with 27 in Haf. unfold cur in *. destruct V1 as [V1 | [_ V1]]; [lia |].
      assert (0 <= buf s' (bp s') * 2 ^ (27 - ct s') + c s'); [| lia]. pose proof (F7 (bp s')). pose proof (p2 (27 - ct s') ltac:(lia)). nia.
    + rewrite (F5 (i + 1)) by lia. apply Hcl; [lia | lia |]. rewrite <- F5 by lia. exact E.
  - intros _ E. replace (bp s + 1 - 1) with (bp s) in E by lia. unfold low, W. rewrite V2, E in *. change (kk 255) with 7 in *.
    change (27 - 7) with 20 in *. destruct V1 as [V1 | [_ V1]]; lia.
  - rewrite F4, Hok. cbn [andb]. apply Z.leb_le. lia.
Qed.

(** One round of renormalisation. *)
Lemma shift_inv : forall start s, Inv start 1 (2 ^ 15) s ->
  Inv start 2 (2 ^ 16) (shift_enc start s) /\ a (shift_enc start s) = 2 * a s /\ ctxs (shift_enc start s) = ctxs s.
Proof.
  intros start s I. pose proof (inv_c start 1 _ s ltac:(lia) I) as Ic. destruct I as [Hb Ha Hc Hct Hr Hbp Hx Hcl Haf Hok].
  unfold shift_enc. cbn [ct]. rewrite !shl_id by (change (2 ^ 1) with 2; lia). change (2 ^ 1) with 2.
  rewrite (u32_id (ct s - 1)) by lia.
  set (s1 := mkMqc (c s * 2) (a s * 2) (ct s - 1) (bp s) (buf s) (ctxs s) (ok s)).
  assert (Ep : 2 ^ ct s = 2 ^ (ct s - 1) * 2) by (replace (ct s) with (ct s - 1 + 1) at 1 by lia; rewrite Z.pow_add_r by lia; reflexivity).
  assert (EW : W s1 = W s * 2).
  { unfold W, s1. cbn [ct]. replace (27 - (ct s - 1)) with (27 - ct s + 1) by lia. rewrite Z.pow_add_r by lia. reflexivity. }
  assert (EL : low s1 = low s * 2) by (unfold low; rewrite EW; unfold s1, cur; cbn [bp buf c]; ring).
  assert (Haf1 : start <= bp s1 - 1 -> buf s1 (bp s1 - 1) = 255 -> low s1 + a s1 <= 144 * W s1).
  { rewrite EL, EW. unfold s1. cbn [a bp buf]. intros A1 A2. specialize (Haf A1 A2). lia. }
  destruct (Z.eqb_spec (ct s - 1) 0) as [E | E].
  - assert (I' : Inv start 1 (2 ^ 16 + 1) (byteout start s1)).
    { apply inv_byteout; try assumption; unfold s1; cbn [a c ct bp buf ctxs ok]; try assumption; try lia.
    }
    destruct (byteout_frame start s1) as (F1 & F2 & F3 & _).
    split; [| split; [rewrite F2; unfold s1; cbn [a]; lia | rewrite F3; reflexivity]].
    destruct I' as [Hb' Ha' Hc' Hct' Hr' Hbp' Hx' Hcl' Haf' Hok']. constructor; try assumption.
    rewrite F2. unfold s1. cbn [a]. lia.
  - split; [| split; [unfold s1; cbn [a]; lia | reflexivity]].
    constructor; try assumption; unfold s1; cbn [a c ct bp buf ctxs ok]; try assumption; try lia.
    all: rewrite Ep in Hr; clear - Hr; nia.
Qed.

Lemma shift_claim : forall B start s, Inv start 1 (2 ^ 15) s -> Claim B (shift_enc start s) -> Claim B s.
Proof.
  intros B start s I. pose proof (inv_c start 1 _ s ltac:(lia) I) as Ic. destruct I as [Hb Ha Hc Hct Hr Hbp Hx Hcl Haf Hok].
  unfold shift_enc. cbn [ct]. rewrite !shl_id by (change (2 ^ 1) with 2; lia). rewrite (u32_id (ct s - 1)) by lia.
  set (s1 := mkMqc (c s * 2 ^ 1) (a s * 2 ^ 1) (ct s - 1) (bp s) (buf s) (ctxs s) (ok s)). intros Cl.
  apply (claim_shift B s s1 1); try reflexivity; try lia.
  destruct (Z.eqb_spec (ct s - 1) 0) as [E | E]; [| exact Cl].
  apply (claim_byteout B start s1); try exact Cl; unfold s1; cbn [a c ct bp buf ctxs ok]; try assumption; change (2 ^ 1) with 2 in *; try lia.
Qed.

Lemma renorme_inv : forall fuel start s, Inv start 1 (2 ^ 15) s -> 2 ^ 15 <= a s * 2 ^ Z.of_nat fuel ->
  Inv start (2 ^ 15) (2 ^ 16) (renorme fuel start s) /\ ctxs (renorme fuel start s) = ctxs s /\
  forall B, Claim B (renorme fuel start s) -> Claim B s.
Proof.
  induction fuel as [| fuel IH]; intros start s I Hf.
  - destruct I. cbn in Hf. lia.
  - cbn [renorme]. destruct (shift_inv start s I) as (I1 & E1 & X1). set (s1 := shift_enc start s) in *.
    rewrite bit15 by (destruct I1; lia). destruct (Z.ltb_spec (a s1) (2 ^ 15)) as [L | L]; cbn [negb].
    + assert (I2 : Inv start 1 (2 ^ 15) s1) by (destruct I1; constructor; try assumption; lia).
      destruct (IH start s1 I2) as (J & X & C).
      { rewrite E1. rewrite Nat2Z.inj_succ, Z.pow_succ_r in Hf by lia. lia. }
      split; [exact J |]. split; [congruence |]. intros B Cl. apply (shift_claim B start s I). apply C, Cl.
    + split; [destruct I1; constructor; try assumption; lia |]. split; [exact X1 |]. intros B. apply shift_claim, I.
Qed.
