(** Ends of MQ segments: what flush and erterm write lies in the final
    interval. *)

From Coq Require Import ZArith List Lia Bool.
From Verif Require Import Ints Mem MqModel MqProofs MqSync.
Import ListNotations.
Local Open Scope Z_scope.

(** A stream that is 0xFF from the byte after [bp] on. *)
Lemma tail_ff : forall B n, (forall i, n < i -> B i = 255) -> forall j, T B n j = 8 * Z.of_nat j /\ R B n j = (B n + 1) * 2 ^ (8 * Z.of_nat j) - 1.
Proof.
  intros B n HB. induction j as [| j [IT IR]].
  - cbn [T R]. split; [lia |]. change (8 * Z.of_nat 0) with 0. change (2 ^ 0) with 1. lia.
  - cbn [T R]. assert (Es : sh B (n + Z.of_nat j) = 8) by (unfold sh; rewrite (HB (n + Z.of_nat j + 1)) by lia; rewrite andb_false_r; reflexivity).
    rewrite Es, IT, IR, (HB (n + Z.of_nat (S j))) by lia. split; [lia |]. replace (8 * Z.of_nat (S j)) with (8 * Z.of_nat j + 8) by lia.
    rewrite Z.pow_add_r by lia. change (2 ^ 8) with 256. ring.
Qed.

Lemma claim_final : forall B s, (forall i, bp s < i -> B i = 255) -> (forall i, i <= bp s -> B i = buf s i) -> ct s <= 27 ->
  c s < W s -> W s <= c s + a s -> Claim B s.
Proof.
  intros B s Hf Hb Hct Hc Ha. assert (Ec : B (bp s) = cur s) by (apply Hb; lia).
  assert (Hw : 0 < W s) by (apply p2; lia). constructor.
  - left. exact Ec.
  - intros i Hi. apply Hb. lia.
  - intros j. destruct (tail_ff B (bp s) Hf j) as [-> ->]. rewrite Ec. pose proof (p2 (8 * Z.of_nat j) ltac:(lia)) as P.
    unfold low. set (p := 2 ^ (8 * Z.of_nat j)) in *. clearbody p. assert ((cur s + 1) * W s <= cur s * W s + c s + a s) by lia. nia.
  - intros j. destruct (tail_ff B (bp s) Hf (S j)) as [-> ->]. rewrite Ec. pose proof (p2 (8 * Z.of_nat (S j)) ltac:(lia)) as P.
    unfold low. set (p := 2 ^ (8 * Z.of_nat (S j))) in *. clearbody p. assert (cur s * W s + c s < (cur s + 1) * W s) by lia. nia.
Qed.

(** Shift the register by [ct] and output a byte. *)
Definition push (start : Z) (s : mqc) : mqc := byteout start (set_c s (shl (c s) (ct s))).

Definition Inv1 (start : Z) (s : mqc) : Prop := Inv start 1 2 (set_a s 1).

Lemma byteout_set_a : forall start s x, byteout start (set_a s x) = set_a (byteout start s) x.
Proof.
  intros start s x. unfold byteout. change (cur (check (start - 1 <=? bp (set_a s x)) (set_a s x))) with (cur s).
  change (cur (check (start - 1 <=? bp s) s)) with (cur s).
  change (c (check (start - 1 <=? bp (set_a s x)) (set_a s x))) with (c s). change (c (check (start - 1 <=? bp s) s)) with (c s).
  destruct (cur s =? 255); [reflexivity |]. destruct (Z.land (c s) 134217728 =? 0); [reflexivity |].
  change (cur (write_byte (check (start - 1 <=? bp (set_a s x)) (set_a s x)) (cur s + 1)))
    with (cur (write_byte (check (start - 1 <=? bp s) s) (cur s + 1))).
  destruct (_ =? 255); reflexivity.
Qed.

(** The registers just before the byte is written. *)
Definition lifted (s : mqc) (x : Z) : mqc := mkMqc (c s * 2 ^ ct s) (x * 2 ^ ct s) 0 (bp s) (buf s) (ctxs s) (ok s).

Lemma lifted_facts : forall start s x, Inv1 start s -> W (lifted s x) = W s * 2 ^ ct s /\ W (lifted s x) = 2 ^ 27 /\ low (lifted s x) = low s * 2 ^ ct s.
Proof.
  intros start s x [_ _ _ Hct _ _ _ _ _ _]. cbn [set_a ct] in Hct. unfold W, lifted. cbn [ct]. split; [| split].
  - rewrite <- Z.pow_add_r by lia. f_equal. lia.
  - reflexivity.
  - unfold low, cur, W. cbn [ct bp buf c]. replace (2 ^ (27 - 0)) with (2 ^ (27 - ct s) * 2 ^ ct s); [ring |].
    rewrite <- Z.pow_add_r by lia. f_equal. lia.
Qed.

Lemma push_eq : forall start s x, Inv1 start s -> set_a (push start s) (x * 2 ^ ct s) = byteout start (lifted s x).
Proof.
  intros start s x I. pose proof I as [_ _ Hc Hct Hr _ _ _ _ _]. cbn [set_a ct c a] in *. unfold push.
  rewrite shl_id; [| lia |].
  - rewrite <- byteout_set_a. rewrite <- (byteout_ct start _ 0). reflexivity.
  - pose proof (p2 (ct s) ltac:(lia)). nia.
Qed.

Lemma push_inv : forall start s, Inv1 start s ->
  Inv1 start (push start s) /\ 0 <= c (push start s) < W (push start s) /\ 7 <= ct (push start s) <= 8 /\ bp (push start s) = bp s + 1 /\
  ctxs (push start s) = ctxs s /\ (exists v, low s * 2 ^ ct s = v * 2 ^ 27 + low (push start s)) /\
  forall B x, 1 <= x -> (c s + x) * 2 ^ ct s <= 2 ^ 27 + 2 ^ 24 ->
    Claim B (set_a (push start s) (x * 2 ^ ct s)) -> Claim B (set_a s x).
Proof.
  intros start s I. pose proof (push_eq start s) as PE. destruct (lifted_facts start s 1 I) as (EW & EW0 & EL).
  pose proof I as [Hb _ Hc Hct Hr Hbp Hx Hcl Haf Hok]. cbn [set_a ct c a bp buf ctxs ok] in *.
  pose proof (p2 (ct s) ltac:(lia)) as Pct. assert (Pct12 : 2 ^ ct s <= 2 ^ 12) by (apply Z.pow_le_mono_r; lia).
  specialize (PE 1 I) as P1.
  assert (IB : Inv start 1 (2 ^ 16 + 1) (byteout start (lifted s 1))).
  { apply inv_byteout; try assumption; unfold lifted at 1; cbn [ct c a bp buf ctxs ok]; try assumption; try lia; try nia.
    - unfold lifted. cbn [a]. nia.
    - unfold lifted. cbn [a]. nia.
    - intros A1 A2. cbn [lifted bp buf] in A1, A2. specialize (Haf A1 A2). rewrite EL, EW. cbn [lifted a].
      assert (low s + 1 <= 144 * W s) by exact Haf. nia. }
  destruct (byteout_frame start (lifted s 1)) as (F1 & F2 & F3 & _).
  destruct (byteout_value start (lifted s 1) Hb) as (V1 & V2 & V3 & V4).
  { unfold lifted. cbn [c]. nia. }
  set (v := buf (byteout start (lifted s 1)) (bp (lifted s 1))) in *. clearbody v.
  rewrite <- P1 in *. cbn [set_a c a ct bp buf ctxs ok lifted] in *.
  assert (Hk : 7 <= ct (push start s) <= 8) by (rewrite V2; unfold kk; destruct (_ =? _); lia).
  assert (EV : low s * 2 ^ ct s = v * 2 ^ 27 + low (push start s)).
  { rewrite <- EL. unfold low at 1. rewrite EW0. unfold low, W. change (cur (lifted s 1)) with (cur s) in *.
    cbn [lifted c]. change (cur (set_a (push start s) (1 * 2 ^ ct s))) with (cur (push start s)) in V4. lia. }
  split; [| split; [| split; [| split; [| split; [| split]]]]].
  - eapply inv_narrow; try exact IB; cbn [set_a c a ct bp buf ctxs ok]; try reflexivity; try lia. rewrite F3. exact Hx.
  - exact V3.
  - exact Hk.
  - exact F1.
  - exact F3.
  - exists v. exact EV.
  - intros B x H1 H2 Cl. rewrite PE in Cl by exact I.
    apply (claim_shift B (set_a s x) (lifted s x) (ct s)); try reflexivity; cbn [set_a ct]; try lia; [cbn [lifted ct]; lia |].
    apply (claim_byteout B start (lifted s x)); try exact Cl; try exact Hb; try reflexivity; cbn [lifted c a]; nia.
Qed.

(** ** flush *)

Lemma setbits_facts : forall start s, Inv start (2 ^ 15) (2 ^ 16) s ->
  exists x, setbits s = set_c s x /\ c s <= x < c s + a s /\ (x + 1) mod 2 ^ 15 = 0.
Proof.
  intros start s I. pose proof (inv_c start (2 ^ 15) (2 ^ 16) s ltac:(lia) I) as Ic. destruct I as [_ Ha Hc _ _ _ _ _ _ _].
  unfold setbits. rewrite (u32_id (c s + a s)) by lia. cbn [set_c c].
  assert (EO : Z.lor (c s) 65535 = c s - c s mod 2 ^ 16 + (2 ^ 16 - 1)).
  { assert (Em : Z.land (c s) 65535 = c s mod 2 ^ 16) by (apply (Z.land_ones (c s) 16); lia).
    assert (D0 : Z.land (Z.ldiff (c s) 65535) 65535 = 0) by (apply Z.land_ldiff).
    assert (E1 : Z.lor (c s) 65535 = Z.ldiff (c s) 65535 + 65535).
    { rewrite Z.add_nocarry_lxor by exact D0. rewrite Z.lxor_lor by exact D0. apply Z.bits_inj'. intros k Hk. rewrite !Z.lor_spec, Z.ldiff_spec.
      destruct (Z.testbit (c s) k), (Z.testbit 65535 k); reflexivity. }
    assert (E2 : c s - Z.land (c s) 65535 = Z.ldiff (c s) 65535).
    { rewrite Z.sub_nocarry_ldiff.
      - apply Z.bits_inj'. intros k Hk. rewrite !Z.ldiff_spec, Z.land_spec. destruct (Z.testbit (c s) k), (Z.testbit 65535 k); reflexivity.
      - apply Z.bits_inj'. intros k Hk. rewrite Z.ldiff_spec, Z.land_spec, Z.bits_0. destruct (Z.testbit (c s) k), (Z.testbit 65535 k); reflexivity. }
    lia. }
  rewrite EO. set (y := c s - c s mod 2 ^ 16 + (2 ^ 16 - 1)). pose proof (Z.mod_pos_bound (c s) (2 ^ 16) ltac:(lia)) as Mb.
  pose proof (Z.div_mod (c s) (2 ^ 16) ltac:(lia)) as Dm.
  assert (Ey : y + 1 = (2 * (c s / 2 ^ 16) + 2) * 2 ^ 15) by (unfold y; lia).
  destruct (Z.leb_spec (c s + a s) y) as [L | L].
  - exists (y - 32768). split; [| split; [unfold y in *; lia |]].
    + rewrite u32_id by (unfold y in *; lia). reflexivity.
    + replace (y - 32768 + 1) with ((2 * (c s / 2 ^ 16) + 1) * 2 ^ 15) by lia. apply Z.mod_mul. lia.
  - exists y. split; [reflexivity |]. split; [unfold y; lia |]. rewrite Ey. apply Z.mod_mul. lia.
Qed.

(** The finished state: [e] is the end of the data, [t] the last real byte. *)
Record Ended (start : Z) (s s' : mqc) : Prop := mkEnded {
  en_claim : forall B, (forall i, i < bp s' -> B i = buf s' i) -> (forall i, bp s' <= i -> B i = 255) -> Claim B s;
  en_bytes : bytes (buf s');
  en_clean : forall i, start <= i -> i + 1 < bp s' -> buf s' i = 255 -> buf s' (i + 1) <= 143;
  en_last : start < bp s' -> buf s' (bp s' - 1) <> 255;
  en_bp : bp s < bp s' \/ bp s = bp s' /\ cur s = 255;
  en_ctx : ctxs s' = ctxs s;
  en_ok : ok s' = true }.

Lemma end_of_push : forall start s s2 s' x, (forall B, Claim B (set_a s2 x) -> Claim B s) -> Inv1 start s2 -> c s2 < W s2 -> W s2 <= c s2 + x ->
  bp s' = (if cur s2 =? 255 then bp s2 else bp s2 + 1) -> (forall i, i <= bp s2 -> buf s' i = buf s2 i) -> bytes (buf s') -> ctxs s' = ctxs s -> ok s' = true ->
  bp s < bp s2 \/ bp s = bp s2 /\ cur s2 = cur s -> Ended start s s'.
Proof.
  intros start s s2 s' x HC I Hc Hx Ebp Ebuf Hby Ectx Eok Hbp. destruct I as [Hb Ha Hc0 Hct Hr Hbp2 Hx2 Hcl Haf Hok]. cbn [set_a ct c a bp buf ctxs ok] in *.
  assert (Bef : forall i, start <= i -> i < bp s2 -> buf s2 i = 255 -> buf s2 (i + 1) <= 143).
  { intros i Hi1 Hi2 E. destruct (Z.eq_dec (i + 1) (bp s2)) as [E1 | E1]; [| apply Hcl; [lia | lia | exact E]].
    replace i with (bp s2 - 1) in E, Hi1 by lia. specialize (Haf Hi1 E). unfold low, W, cur in Haf. cbn [set_a bp buf ct c] in Haf.
    rewrite E1. pose proof (p2 (27 - ct s2) ltac:(lia)). nia. }
  constructor; try assumption.
  - intros B H1 H2. apply HC. apply claim_final; cbn [set_a c a ct bp buf]; try lia; try assumption.
    + intros i Hi. apply H2. rewrite Ebp. destruct (_ =? _); lia.
    + intros i Hi. destruct (Z.eqb_spec (cur s2) 255) as [E | E].
      * destruct (Z.eq_dec i (bp s2)) as [-> | Hne]; [rewrite H2 by lia; symmetry; exact E |]. rewrite H1 by lia. apply Ebuf. lia.
      * rewrite H1 by lia. apply Ebuf. exact Hi.
  - intros i Hi1 Hi2. rewrite !Ebuf by (destruct (_ =? _) in Ebp; lia). apply Bef; [exact Hi1 | destruct (_ =? _) in Ebp; lia].
  - intros Hs E. destruct (Z.eqb_spec (cur s2) 255) as [E1 | E1].
    + rewrite Ebp, Ebuf in E by lia. specialize (Bef (bp s2 - 1) ltac:(lia) ltac:(lia) E). replace (bp s2 - 1 + 1) with (bp s2) in Bef by lia.
      unfold cur in E1. lia.
    + rewrite Ebp, Ebuf in E by lia. replace (bp s2 + 1 - 1) with (bp s2) in E by lia. contradiction.
  - rewrite Ebp. destruct (Z.eqb_spec (cur s2) 255) as [E1 | E1]; [| lia]. destruct Hbp as [Hbp | [Hbp Hcur]]; [left; lia | right]. split; [exact Hbp | congruence].
Qed.

Lemma flush_end : forall start s, Inv start (2 ^ 15) (2 ^ 16) s -> Ended start s (flush start s) /\ start < bp (flush start s) /\ bp s < bp (flush start s).
Proof.
  intros start s I. destruct (setbits_facts start s I) as (x & E & Hx & Hm). unfold flush. rewrite E.
  set (s1 := set_c s x). change (byteout start (set_c s1 (shl (c s1) (ct s1)))) with (push start s1).
  assert (I1 : Inv1 start s1).
  { unfold Inv1. apply (inv_narrow start (2 ^ 15) (2 ^ 16) _ _ s); try exact I; try reflexivity; unfold s1; cbn [set_a set_c c a ctxs]; try lia.
    destruct I; assumption. }
  destruct (push_inv start s1 I1) as (I2 & C2 & K2 & B2 & X2 & (v2 & V2) & L2). set (s2 := push start s1) in *.
  change (byteout start (set_c s2 (shl (c s2) (ct s2)))) with (push start s2).
  destruct (push_inv start s2 I2) as (I3 & C3 & K3 & B3 & X3 & (v3 & V3) & L3). set (s3 := push start s2) in *.
  change (ct s1) with (ct s) in *. change (bp s1) with (bp s) in *. change (c s1) with x in *.
  assert (Hct : 1 <= ct s <= 12) by (destruct I; assumption).
  assert (Ew3 : W s3 = 2 ^ (27 - ct s3)) by reflexivity.
  assert (Up : W s3 <= c s3 + 2 ^ ct s * 2 ^ ct s2).
  { (* low + a is a multiple of W *)
    destruct (Z.mod_divide (x + 1) (2 ^ 15) ltac:(lia)) as [Hd _]. destruct (Hd Hm) as [q Hq].
    assert (EL1 : low s1 + 1 = cur s * W s1 + (x + 1)) by (unfold low, s1, cur; cbn [set_c bp buf c]; lia).
    assert (Mul : (W s3 | low s3 + 2 ^ ct s * 2 ^ ct s2)).
    { replace (low s3 + 2 ^ ct s * 2 ^ ct s2) with (cur s * 2 ^ 27 * 2 ^ ct s2 + q * 2 ^ (15 + ct s + ct s2) - v2 * 2 ^ 27 * 2 ^ ct s2 - v3 * 2 ^ 27).
      - assert (D : forall n, 27 - ct s3 <= n -> (W s3 | 2 ^ n)).
        { intros n Hn. rewrite Ew3. exists (2 ^ (n - (27 - ct s3))). rewrite <- Z.pow_add_r by lia. f_equal. lia. }
        assert (D27 : (W s3 | 2 ^ 27)) by (apply D; lia).
        apply Z.divide_sub_r; [apply Z.divide_sub_r; [apply Z.divide_add_r |] |].
        + apply Z.divide_mul_l, Z.divide_mul_r, D27.
        + apply Z.divide_mul_r, D. lia.
        + apply Z.divide_mul_l, Z.divide_mul_r, D27.
        + apply Z.divide_mul_r, D27.
      - assert (EW1 : W s1 * 2 ^ ct s = 2 ^ 27) by (unfold W, s1; cbn [set_c ct]; rewrite <- Z.pow_add_r by lia; f_equal; lia).
        assert (A2 : low s2 + 2 ^ ct s = cur s * 2 ^ 27 + q * 2 ^ 15 * 2 ^ ct s - v2 * 2 ^ 27).
        { rewrite <- Hq, <- EW1. assert (low s2 = low s1 * 2 ^ ct s - v2 * 2 ^ 27) by lia.
          replace (low s1) with (cur s * W s1 + (x + 1) - 1) in H by lia. rewrite <- EW1 in H. lia. }
        assert (A3 : low s3 = low s2 * 2 ^ ct s2 - v3 * 2 ^ 27) by lia.
        rewrite A3. replace (low s2) with (cur s * 2 ^ 27 + q * 2 ^ 15 * 2 ^ ct s - v2 * 2 ^ 27 - 2 ^ ct s) by lia.
        rewrite !Z.pow_add_r by lia. ring. }
    destruct Mul as [r Hr]. assert (Hw : 0 < W s3) by (apply p2; lia). unfold low in Hr.
    assert (P : 0 < 2 ^ ct s * 2 ^ ct s2) by (apply Z.mul_pos_pos; apply p2; lia).
    assert (cur s3 < r) by nia. nia. }
  assert (Cl : forall B, Claim B (set_a s3 (2 ^ ct s * 2 ^ ct s2)) -> Claim B s).
  { intros B Cl. apply L3 in Cl.
    - replace (2 ^ ct s) with (1 * 2 ^ ct s) in Cl by lia. apply L2 in Cl; [| lia |].
      + apply (claim_narrow B s (set_a s1 1)); try reflexivity; unfold s1; cbn [set_a set_c c a]; try lia. exact Cl.
      + destruct I1 as [_ _ _ _ Hr _ _ _ _ _]. exact Hr.
    - pose proof (p2 (ct s) ltac:(lia)). lia.
    - assert (c s2 * 2 ^ ct s2 <= 2 ^ 27).
      { replace (2 ^ 27) with (W s2 * 2 ^ ct s2) by (unfold W; rewrite <- Z.pow_add_r by lia; f_equal; lia). apply Z.mul_le_mono_nonneg_r; [apply Z.lt_le_incl, p2; lia | lia]. }
      assert (2 ^ ct s * 2 ^ ct s2 <= 2 ^ 20) by (rewrite <- Z.pow_add_r by lia; apply Z.pow_le_mono_r; lia). lia. }
  assert (Hbp : start - 1 <= bp s) by (destruct I; assumption).
  assert (Eb : bp (if negb (cur s3 =? 255) then inc_bp s3 else s3) = (if cur s3 =? 255 then bp s3 else bp s3 + 1)) by (destruct (cur s3 =? 255); reflexivity).
  split; [| split; rewrite Eb; destruct (_ =? _); lia].
  apply (end_of_push start s s3 _ _ Cl I3); try exact Up; try exact Eb; try lia.
  - intros i _. destruct (cur s3 =? 255); reflexivity.
  - destruct I3. destruct (cur s3 =? 255); assumption.
  - replace (ctxs s) with (ctxs s3) by (rewrite X3, X2; reflexivity). destruct (cur s3 =? 255); reflexivity.
  - destruct I3. destruct (cur s3 =? 255); assumption.
Qed.

(** ** erterm *)

Lemma erterm_unfold : forall fuel start k s, erterm_loop (S fuel) start k s =
  if 0 <? k then erterm_loop fuel start (k - ct (push start s)) (push start s) else s.
Proof.
  intros fuel start k s. cbn [erterm_loop]. rewrite byteout_ct. reflexivity.
Qed.

Lemma push_room : forall s, ct s <= 27 -> 0 <= ct s -> 0 <= c s < W s -> ct s <= 20 -> (c s + 2 ^ (20 - ct s)) * 2 ^ ct s <= 2 ^ 27 + 2 ^ 24.
Proof.
  intros s H1 H2 H3 H4. rewrite Z.mul_add_distr_r, <- Z.pow_add_r by lia. replace (20 - ct s + ct s) with 20 by lia.
  assert (c s * 2 ^ ct s <= W s * 2 ^ ct s) by (apply Z.mul_le_mono_nonneg_r; [apply Z.lt_le_incl, p2; lia | lia]).
  replace (W s * 2 ^ ct s) with (2 ^ 27) in H by (unfold W; rewrite <- Z.pow_add_r by lia; f_equal; lia). lia.
Qed.

Lemma erterm_run : forall start s, Inv start (2 ^ 15) (2 ^ 16) s ->
  exists x, let s2 := erterm_loop rounds start (11 - ct s + 1) s in
    (forall B, Claim B (set_a s2 x) -> Claim B s) /\ Inv1 start s2 /\ 0 <= c s2 < W s2 /\ W s2 <= c s2 + x /\ ctxs s2 = ctxs s /\
    (bp s < bp s2 \/ bp s = bp s2 /\ cur s2 = cur s) /\ 7 <= ct s2.
Proof.
  intros start s I. assert (Hct : 1 <= ct s <= 12) by (destruct I; assumption).
  assert (Ha : 2 ^ 15 <= a s) by (destruct I; lia). assert (Hc : 0 <= c s) by (destruct I; lia).
  assert (Hr : (c s + a s) * 2 ^ ct s <= 2 ^ 27 + 2 ^ 24) by (destruct I; assumption).
  assert (I1 : Inv1 start s).
  { unfold Inv1. apply (inv_narrow start (2 ^ 15) (2 ^ 16) _ _ s); try exact I; try reflexivity; cbn [set_a c a ctxs]; try lia. destruct I; assumption. }
  unfold rounds. rewrite erterm_unfold. destruct (Z.ltb_spec 0 (11 - ct s + 1)) as [L | L].
  2:{ exists (a s). cbn zeta. assert (E : ct s = 12) by lia. assert (EW : W s = 2 ^ 15) by (unfold W; rewrite E; reflexivity).
      rewrite E in Hr. rewrite EW. split; [intros B Cl; destruct Cl; constructor; assumption |].
      split; [exact I1 |]. split; [lia |]. split; [lia |]. split; [reflexivity |]. split; [right; split; reflexivity | lia]. }
  destruct (push_inv start s I1) as (I2 & C2 & K2 & B2 & X2 & _ & L2). set (s2 := push start s) in *.
  set (x0 := if ct s <=? 5 then 2 ^ 15 else 2 ^ (20 - ct s)).
  assert (Hx0 : 1 <= x0 <= 2 ^ 15).
  { unfold x0. destruct (Z.leb_spec (ct s) 5); [lia |]. pose proof (p2 (20 - ct s) ltac:(lia)). split; [lia |]. apply Z.pow_le_mono_r; lia. }
  assert (Cl2 : forall B, Claim B (set_a s2 (x0 * 2 ^ ct s)) -> Claim B s).
  { intros B Cl. apply L2 in Cl; [| lia |].
    - apply (claim_narrow B s (set_a s x0)); try reflexivity; cbn [set_a c a]; try lia. exact Cl.
    - pose proof (p2 (ct s) ltac:(lia)). nia. }
  assert (Ex : x0 * 2 ^ ct s = 2 ^ (if ct s <=? 5 then 15 + ct s else 20)).
  { unfold x0. destruct (ct s <=? 5) eqn:E5; [rewrite Z.pow_add_r by lia; reflexivity |].
    apply Z.leb_gt in E5. rewrite <- Z.pow_add_r by lia. f_equal. lia. }
  rewrite erterm_unfold. destruct (Z.ltb_spec 0 (11 - ct s + 1 - ct s2)) as [L' | L'].
  - (* a second round *)
    destruct (push_inv start s2 I2) as (I3 & C3 & K3 & B3 & X3 & _ & L3). set (s3 := push start s2) in *.
    rewrite erterm_unfold. destruct (Z.ltb_spec 0 (11 - ct s + 1 - ct s2 - ct s3)) as [L'' | _]; [lia |].
    exists (2 ^ (20 - ct s2) * 2 ^ ct s2). cbn zeta.
    assert (E20 : 2 ^ (20 - ct s2) * 2 ^ ct s2 = 2 ^ 20) by (rewrite <- Z.pow_add_r by lia; f_equal; lia).
    split; [| split; [exact I3 |]; split; [exact C3 |]; split; [| split; [congruence |]; split; [left; lia | lia]]].
    + intros B Cl. apply Cl2. apply L3 in Cl; [| pose proof (p2 (20 - ct s2) ltac:(lia)); lia |].
      * apply (claim_narrow B _ (set_a s2 (2 ^ (20 - ct s2)))); try reflexivity; cbn [set_a c a]; try lia; [| exact Cl].
        rewrite Ex. apply Zplus_le_compat_l. apply Z.pow_le_mono_r; [lia |]. destruct (Z.leb_spec (ct s) 5); lia.
      * apply push_room; lia.
    + rewrite E20. assert (W s3 <= 2 ^ 20) by (unfold W; apply Z.pow_le_mono_r; lia). lia.
  - exists (x0 * 2 ^ ct s). cbn zeta.
    split; [exact Cl2 |]. split; [exact I2 |]. split; [exact C2 |]. split; [| split; [exact X2 |]; split; [left; lia | lia]].
    rewrite Ex. assert (W s2 <= 2 ^ (if ct s <=? 5 then 15 + ct s else 20)); [| lia].
    unfold W. apply Z.pow_le_mono_r; [lia |]. destruct (Z.leb_spec (ct s) 5); lia.
Qed.

Lemma erterm_tail : forall start s s2 x, (forall B, Claim B (set_a s2 x) -> Claim B s) -> Inv1 start s2 -> 0 <= c s2 < W s2 -> W s2 <= c s2 + x ->
  ctxs s2 = ctxs s -> (bp s < bp s2 \/ bp s = bp s2 /\ cur s2 = cur s) -> 7 <= ct s2 ->
  Ended start s (if negb (cur s2 =? 255) then byteout start s2 else s2).
Proof.
  intros start s s2 x Cl I2 Hc Hw Ectx Hbp Hct.
  assert (Hct27 : ct s2 <= 27) by (destruct I2 as [_ _ _ Hc2 _ _ _ _ _ _]; cbn [set_a ct] in Hc2; lia).
  assert (Hs : start - 1 <= bp s2) by (destruct I2; assumption).
  assert (Hsz : W s2 <= 2 ^ 20) by (unfold W; apply Z.pow_le_mono_r; lia).
  set (s' := if negb (cur s2 =? 255) then byteout start s2 else s2).
  assert (F : bp s' = (if cur s2 =? 255 then bp s2 else bp s2 + 1) /\ (forall i, i <= bp s2 -> buf s' i = buf s2 i) /\ bytes (buf s') /\ ctxs s' = ctxs s2 /\ ok s' = true).
  { unfold s'. destruct (Z.eqb_spec (cur s2) 255) as [E | E]; cbn [negb].
    - destruct I2. split; [reflexivity |]. split; [intros; reflexivity |]. split; [assumption |]. split; [reflexivity | assumption].
    - destruct (byteout_frame start s2) as (F1 & F2 & F3 & F4 & F5 & F6 & F7).
      destruct I2 as [Hb2 _ _ _ _ _ _ _ _ Hok2]. cbn [set_a buf ok] in *.
      split; [exact F1 |]. split; [| split; [apply F7, Hb2 |]; split; [exact F3 |]; rewrite F4, Hok2; apply Z.leb_le; lia].
      intros i Hi. destruct (Z.eq_dec i (bp s2)) as [-> | Hne]; [| apply F5; lia].
      destruct (byteout_cases start s2) as (s0 & Eq & Ea & Eb & _ & _ & N & _). rewrite Eq.
      rewrite bit27 in * by lia. destruct (Z.ltb_spec (c s2) (2 ^ 27)); [| lia]. destruct (Z.eqb_spec (cur s2) 255); [contradiction |].
      cbn [orb negb andb] in *. destruct (N eq_refl) as [Nb _]. unfold emit8. cbn [buf]. rewrite Eb, Nb. apply upd_other. lia. }
  destruct F as (F1 & F2 & F3 & F4 & F5).
  apply (end_of_push start s s2 s' x Cl I2); try assumption; try lia. congruence.
Qed.

Lemma erterm_end : forall start s, Inv start (2 ^ 15) (2 ^ 16) s -> Ended start s (erterm_enc start s).
Proof.
  intros start s I. destruct (erterm_run start s I) as (x & Cl & I2 & Hc & Hw & Ectx & Hbp & Hct). unfold erterm_enc.
  exact (erterm_tail start s _ x Cl I2 Hc Hw Ectx Hbp Hct).
Qed.
