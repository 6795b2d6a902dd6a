(** The MQ decoder follows the encoder: facts used by MqProps. *)

From Coq Require Import ZArith List Lia Bool.
From Verif Require Import Ints Mem MqModel MqProofs.
Import ListNotations.
Local Open Scope Z_scope.

(** ** One encoded decision *)

Lemma inv_narrow : forall start lo hi lo' hi' s s', Inv start lo hi s -> bp s' = bp s -> buf s' = buf s -> ct s' = ct s -> ok s' = ok s ->
  c s <= c s' -> c s' + a s' <= c s + a s -> lo' <= a s' < hi' -> (forall k, 0 <= ctxs s' k < 94) -> Inv start lo' hi' s'.
Proof.
  intros start lo hi lo' hi' s s' [Hb Ha Hc Hct Hr Hbp Hx Hcl Haf Hok] E1 E2 E3 E4 H1 H2 H3 H4.
  constructor; rewrite ?E1, ?E2, ?E3, ?E4; try assumption; try lia.
  - pose proof (p2 (ct s) ltac:(lia)). nia.
  - intros A1 A2. specialize (Haf A1 A2). unfold low, W, cur in *. rewrite E1, E2, E3. lia.
Qed.

(** The part of the interval that stands for decision [d]. *)
Definition lower (s : mqc) (ctx d : Z) : bool :=
  Bool.eqb (d =? mps_of (ctxs s ctx)) (a s - qe_of (ctxs s ctx) <? qe_of (ctxs s ctx)).
Definition pick (s : mqc) (ctx d : Z) : mqc :=
  mkMqc (if lower s ctx d then c s else c s + qe_of (ctxs s ctx))
        (if lower s ctx d then qe_of (ctxs s ctx) else a s - qe_of (ctxs s ctx)) (ct s) (bp s) (buf s)
        (upd (ctxs s) ctx (if d =? mps_of (ctxs s ctx) then nmps_of (ctxs s ctx) else nlps_of (ctxs s ctx))) (ok s).
Definition quick (s : mqc) (ctx d : Z) : bool := (2 ^ 15 <=? a s - qe_of (ctxs s ctx)) && (d =? mps_of (ctxs s ctx)).

Lemma encode_eq : forall start ctx d s, Inv start (2 ^ 15) (2 ^ 16) s ->
  encode start ctx d s =
    if quick s ctx d then set_ctxs (pick s ctx d) (ctxs s) else renorme rounds start (pick s ctx d).
Proof.
  intros start ctx d s I. pose proof (inv_c start (2 ^ 15) (2 ^ 16) s ltac:(lia) I) as Ic. destruct I as [_ Ha Hc _ _ _ Hx _ _ _].
  pose proof (table_ok (ctxs s ctx) (Hx ctx)) as (Hq & _). unfold encode, quick, pick, lower, codemps, codelps.
  rewrite (Z.eqb_sym (mps_of (ctxs s ctx)) d). set (i := ctxs s ctx) in *.
  unfold set_a, set_c, set_ctxs. cbn [c a ct bp buf ctxs ok].
  rewrite (u32_id (a s - qe_of i)) by lia. rewrite (u32_id (c s + qe_of i)) by lia. rewrite bit15 by lia.
  destruct (d =? mps_of i); destruct (Z.ltb_spec (a s - qe_of i) (2 ^ 15)); destruct (Z.leb_spec (2 ^ 15) (a s - qe_of i)); try lia;
    destruct (Z.ltb_spec (a s - qe_of i) (qe_of i)); try lia; reflexivity.
Qed.

Lemma pick_facts : forall start ctx d s, Inv start (2 ^ 15) (2 ^ 16) s ->
  c s <= c (pick s ctx d) /\ c (pick s ctx d) + a (pick s ctx d) <= c s + a s /\ 1 <= a (pick s ctx d) < 2 ^ 16 /\
  (quick s ctx d = true -> 2 ^ 15 <= a (pick s ctx d)) /\ (quick s ctx d = false -> a (pick s ctx d) < 2 ^ 15) /\
  (forall k, 0 <= ctxs (pick s ctx d) k < 94).
Proof.
  intros start ctx d s I. destruct I as [_ Ha Hc _ _ _ Hx _ _ _].
  pose proof (table_ok (ctxs s ctx) (Hx ctx)) as (Hq & _ & Hn & Hl). unfold pick, quick, lower. cbn [c a ctxs].
  set (i := ctxs s ctx) in *.
  split; [| split; [| split; [| split; [| split]]]].
  5:{ destruct (d =? mps_of i); destruct (Z.ltb_spec (a s - qe_of i) (qe_of i)); cbn [Bool.eqb]; destruct (Z.leb_spec (2 ^ 15) (a s - qe_of i)); cbn [andb]; intros; try lia; discriminate. }
  4:{ destruct (d =? mps_of i); destruct (Z.ltb_spec (a s - qe_of i) (qe_of i)); cbn [Bool.eqb]; destruct (Z.leb_spec (2 ^ 15) (a s - qe_of i)); cbn [andb]; intros; try lia; discriminate. }
  4:{ intros k. unfold upd. destruct (_ =? _); [destruct (d =? _); lia | apply Hx]. }
  all: destruct (Bool.eqb _ _); lia.
Qed.

Lemma encode_inv : forall start ctx d s, Inv start (2 ^ 15) (2 ^ 16) s ->
  Inv start (2 ^ 15) (2 ^ 16) (encode start ctx d s) /\
  (forall B, Claim B (encode start ctx d s) -> Claim B (pick s ctx d) /\ Claim B s).
Proof.
  intros start ctx d s I. rewrite (encode_eq start ctx d s I).
  destruct (pick_facts start ctx d s I) as (N1 & N2 & N3 & N4 & N5 & N6). pose proof I as [_ _ _ _ _ _ Hx _ _ _].
  assert (Nw : forall B, Claim B (pick s ctx d) -> Claim B s) by (intros B; apply claim_narrow; try reflexivity; assumption).
  destruct (quick s ctx d) eqn:Q.
  - split.
    + apply (inv_narrow start (2 ^ 15) (2 ^ 16) _ _ s); try reflexivity; try assumption. cbn [set_ctxs a]. split; [apply N4; reflexivity | lia].
    + intros B Cl. assert (C1 : Claim B (pick s ctx d)) by (destruct Cl; constructor; assumption). split; [exact C1 | apply Nw, C1].
  - assert (I1 : Inv start 1 (2 ^ 15) (pick s ctx d)).
    { apply (inv_narrow start (2 ^ 15) (2 ^ 16) _ _ s); try reflexivity; try assumption. specialize (N5 eq_refl). lia. }
    destruct (renorme_inv rounds start _ I1) as (J & X & C).
    { change (Z.of_nat rounds) with 32. lia. }
    split; [exact J |]. intros B Cl. split; [apply C, Cl | apply Nw, C, Cl].
Qed.

(** ** The decoder's registers against the encoder's *)

(** [m], shifted by [off], holds the final stream [B] of a segment [seg..e). *)
Record Data (B : mem) (off seg e : Z) (m : mem) : Prop := mkData {
  d_in : forall i, seg <= i -> i <= e + 1 -> m (i + off) = B i;
  d_fill : forall i, e <= i -> B i = 255;
  d_clean : forall i, seg <= i -> i < e -> B i = 255 -> B (i + 1) <= 143;
  d_bytes : bytes B;
  d_len : seg <= e }.

Record Rel (B : mem) (off seg e : Z) (m : mem) (bk : Z * Z) (s : mqc) (d : mqd) : Prop := mkRel {
  r_a : da d = a s;
  r_x : dctxs d = ctxs s;
  r_j : exists j, T B (bp s) (S j) = 27 - ct s + dct d /\ dc d = R B (bp s) (S j) * 2 ^ (16 - dct d) - low s * 2 ^ 16 /\
        dbp d = Z.min (bp s + Z.of_nat (S j)) e + off;
  r_ct : 0 <= dct d <= 8;
  r_bp : seg - 1 <= bp s;
  r_m : dbuf d = m /\ dend d = e + off /\ backup d = bk }.

Lemma bound_of : forall B s j k, Claim B s -> ct s <= 27 -> 0 <= k <= 16 -> T B (bp s) (S j) = 27 - ct s + k ->
  0 <= R B (bp s) (S j) * 2 ^ (16 - k) - low s * 2 ^ 16 < a s * 2 ^ 16.
Proof.
  intros B s j k [_ _ U D] Hct Hk ET. specialize (U (S j)). specialize (D j). rewrite ET in U, D. unfold W in *.
  rewrite Z.pow_add_r in U, D by lia. pose proof (p2 (27 - ct s) ltac:(lia)) as Pw. pose proof (p2 k ltac:(lia)) as Pk.
  pose proof (p2 (16 - k) ltac:(lia)) as P16.
  assert (E16 : 2 ^ 16 = 2 ^ k * 2 ^ (16 - k)) by (rewrite <- Z.pow_add_r by lia; f_equal; lia).
  set (w := 2 ^ (27 - ct s)) in *. set (p := 2 ^ k) in *. set (q := 2 ^ (16 - k)) in *. set (r := R B (bp s) (S j)) in *.
  assert (U1 : r < (low s + a s) * p).
  { apply (Z.mul_lt_mono_pos_r w); [exact Pw |]. lia. }
  assert (D1 : low s * p < r + 1).
  { apply (Z.mul_lt_mono_pos_r w); [exact Pw |]. lia. }
  rewrite E16. clearbody w p q r. clear - U1 D1 P16. nia.
Qed.

Lemma rel_bounds : forall B off seg e m bk s d, Rel B off seg e m bk s d -> Claim B s -> ct s <= 27 -> 0 <= dc d < a s * 2 ^ 16.
Proof.
  intros B off seg e m bk s d [_ _ (j & ET & ED & _) Hct _ _] Cl H. rewrite ED. apply bound_of; try assumption. lia.
Qed.

Lemma bytein_sync : forall B off seg e m bk s d, Data B off seg e m -> Rel B off seg e m bk s d -> Claim B s -> ct s <= 27 -> a s <= 2 ^ 16 ->
  dct d = 0 -> Rel B off seg e m bk s (bytein d) /\ 7 <= dct (bytein d).
Proof.
  intros B off seg e m bk s d [Hin Hfi Hcl Hby Hle] [Ra Rx (j & ET & ED & EB) Hct Hbp (M1 & M2 & M3)] Cl Hc27 Ha E0.
  rewrite E0 in ET, ED. set (x := bp s + Z.of_nat (S j)) in *.
  assert (Ex : bp s + Z.of_nat (S (S j)) = x + 1) by (unfold x; lia).
  assert (Hx : seg <= x) by (unfold x; lia).
  assert (TT : T B (bp s) (S (S j)) = 27 - ct s + sh B x).
  { change (T B (bp s) (S (S j))) with (T B (bp s) (S j) + sh B x). lia. }
  assert (RR : R B (bp s) (S (S j)) = R B (bp s) (S j) * 2 ^ sh B x + B (x + 1)).
  { change (R B (bp s) (S (S j))) with (R B (bp s) (S j) * 2 ^ sh B x + B (bp s + Z.of_nat (S (S j)))). rewrite Ex. reflexivity. }
  pose proof (sh_range B x) as Sr.
  pose proof (bound_of B s (S j) (sh B x) Cl Hc27 ltac:(lia) TT) as Bd.
  assert (Es : 2 ^ 16 = 2 ^ sh B x * 2 ^ (16 - sh B x)) by (rewrite <- Z.pow_add_r by lia; f_equal; lia).
  assert (ED' : R B (bp s) (S (S j)) * 2 ^ (16 - sh B x) - low s * 2 ^ 16 = dc d + B (x + 1) * 2 ^ (16 - sh B x)).
  { rewrite ED, RR. change (16 - 0) with 16. rewrite Es. ring. }
  assert (Done : forall z dc' p, dc' = dc d + B (x + 1) * 2 ^ (16 - sh B x) -> p = Z.min (x + 1) e + off ->
    Rel B off seg e m bk s (mkMqd (u32 dc') (da d) (sh B x) z p (dend d) m (dctxs d) (backup d))).
  { intros z dc' p -> ->. constructor; cbn [da dctxs dct dc dbp dbuf dend backup]; try assumption; try lia.
    - exists (S j). split; [exact TT |]. split; [| rewrite Ex; reflexivity]. rewrite ED'. apply u32_id. rewrite <- ED'. lia.
    - split; [reflexivity |]. split; assumption. }
  unfold bytein. rewrite M1, EB.
  assert (Em0 : m (Z.min x e + off) = B (Z.min x e)) by (apply Hin; lia).
  assert (Em1 : m (Z.min x e + off + 1) = B (Z.min x e + 1)) by (replace (Z.min x e + off + 1) with (Z.min x e + 1 + off) by lia; apply Hin; lia).
  rewrite Em0, Em1. rewrite !Z.shiftl_mul_pow2 by lia.
  destruct (Z_lt_ge_dec x e) as [L | G].
  - rewrite Z.min_l by lia. assert (Esh : sh B x = if B x =? 255 then 7 else 8).
    { unfold sh. destruct (Z.eqb_spec (B x) 255) as [E | E]; cbn [andb]; [| reflexivity].
      specialize (Hcl x Hx L E). destruct (Z.leb_spec (B (x + 1)) 143); [reflexivity | lia]. }
    destruct (Z.eqb_spec (B x) 255) as [E | E].
    + specialize (Hcl x Hx L E). destruct (Z.ltb_spec 143 (B (x + 1))); [lia |].
      rewrite Esh in Done. split; [| cbn [dct]; lia]. apply Done; [reflexivity | lia].
    + rewrite Esh in Done. split; [| cbn [dct]; lia]. apply Done; [reflexivity | lia].
  - rewrite Z.min_r by lia. rewrite (Hfi e), (Hfi (e + 1)) by lia. cbn [Z.eqb Pos.eqb]. change (143 <? 255) with true. cbn match.
    assert (Esh : sh B x = 8).
    { unfold sh. rewrite (Hfi (x + 1)) by lia. rewrite andb_false_r. reflexivity. }
    rewrite Esh in Done. split; [| cbn [dct]; lia]. apply Done; [rewrite (Hfi (x + 1)) by lia; reflexivity | lia].
Qed.

(** One round of renormalisation on both sides. *)
Lemma shift_sync : forall B off seg e m bk start s d, Data B off seg e m -> Inv start 1 (2 ^ 15) s -> Rel B off seg e m bk s d ->
  Claim B (shift_enc start s) -> Rel B off seg e m bk (shift_enc start s) (shift_dec d).
Proof.
  intros B off seg e m bk start s d HD I Re Cl'. pose proof (shift_claim B start s I Cl') as Cl.
  pose proof (inv_c start 1 _ s ltac:(lia) I) as Ic. destruct I as [Hb Ha Hc Hct Hr Hbp Hx Hcl Haf Hok].
  unfold shift_dec. set (d1 := if dct d =? 0 then bytein d else d).
  assert (R1 : Rel B off seg e m bk s d1 /\ 1 <= dct d1).
  { unfold d1. destruct (Z.eqb_spec (dct d) 0) as [E | E].
    - destruct (bytein_sync B off seg e m bk s d HD Re Cl ltac:(lia) ltac:(lia) E) as [R7 D7]. split; [exact R7 | lia].
    - split; [exact Re |]. destruct Re. lia. }
  destruct R1 as [R1 D1]. clearbody d1. clear Re d.
  pose proof (rel_bounds B off seg e m bk s d1 R1 Cl ltac:(lia)) as Bd.
  destruct R1 as [Ra Rx (j & ET & ED & EB) Rc Rb (M1 & M2 & M3)].
  revert Cl'. unfold shift_enc. cbn [ct]. rewrite !shl_id by (change (2 ^ 1) with 2; lia). change (2 ^ 1) with 2.
  rewrite (u32_id (ct s - 1)) by lia. rewrite (u32_id (dct d1 - 1)) by lia.
  set (s1 := mkMqc (c s * 2) (a s * 2) (ct s - 1) (bp s) (buf s) (ctxs s) (ok s)). intros Cl'.
  assert (EW : W s1 = W s * 2).
  { unfold W, s1. cbn [ct]. replace (27 - (ct s - 1)) with (27 - ct s + 1) by lia. rewrite Z.pow_add_r by lia. reflexivity. }
  assert (EL : low s1 = low s * 2) by (unfold low; rewrite EW; unfold s1, cur; cbn [bp buf c]; ring).
  assert (ED2 : dc d1 * 2 = R B (bp s) (S j) * 2 ^ (16 - (dct d1 - 1)) - low s1 * 2 ^ 16).
  { rewrite EL, ED. replace (16 - (dct d1 - 1)) with (16 - dct d1 + 1) by lia. rewrite (Z.pow_add_r 2 (16 - dct d1) 1) by lia. change (2 ^ 1) with 2. ring. }
  destruct (Z.eqb_spec (ct s - 1) 0) as [E | E].
  - destruct (claim_byteout B start s1) as (C1 & Esh & EL1); try exact Cl'; unfold s1; cbn [a c ct bp buf ctxs ok]; try assumption; try lia.
    destruct (byteout_frame start s1) as (F1 & F2 & F3 & _). fold s1.
    change (bp s1) with (bp s) in *. change (a s1) with (a s * 2) in F2. change (ctxs s1) with (ctxs s) in F3.
    set (s' := byteout start s1) in *. unfold dset. constructor; cbn [da dctxs dct dc dbp dbuf dend backup].
    + lia.
    + congruence.
    + destruct j as [| j].
      { pose proof (T_range B (bp s) 1). lia. }
      exists j. rewrite F1. rewrite T_front in ET. rewrite R_front in ED2. rewrite T_front, Esh in ED2. rewrite Esh in ET.
      split; [lia |]. split; [| rewrite EB; f_equal; f_equal; lia].
      rewrite ED2, EL1. replace (ct s' + T B (bp s + 1) (S j)) with (27 + (dct d1 - 1)) by lia.
      assert (EP : 2 ^ (27 + (dct d1 - 1)) * 2 ^ (16 - (dct d1 - 1)) = 2 ^ 27 * 2 ^ 16) by (rewrite <- !Z.pow_add_r by lia; f_equal; lia).
      rewrite !Z.mul_add_distr_r, <- (Z.mul_assoc (B (bp s))), EP. ring.
    + lia.
    + lia.
    + split; [exact M1 |]. split; assumption.
  - unfold dset. constructor; cbn [da dctxs dct dc dbp dbuf dend backup].
    + unfold s1. cbn [a]. lia.
    + exact Rx.
    + exists j. split; [unfold s1; cbn [bp ct]; lia |]. split; [exact ED2 | exact EB].
    + lia.
    + exact Rb.
    + split; [exact M1 |]. split; assumption.
Qed.

Lemma renorm_sync : forall B off seg e m bk start fuel s d, Data B off seg e m -> Inv start 1 (2 ^ 15) s -> Rel B off seg e m bk s d ->
  2 ^ 15 <= a s * 2 ^ Z.of_nat fuel -> Claim B (renorme fuel start s) ->
  exists d', renormd fuel d = Some d' /\ Rel B off seg e m bk (renorme fuel start s) d'.
Proof.
  intros B off seg e m bk start. induction fuel as [| fuel IH]; intros s d HD I Re Hf Cl.
  - destruct I. cbn in Hf. lia.
  - cbn [renorme renormd] in *. destruct (shift_inv start s I) as (I1 & E1 & X1).
    assert (Cs : Claim B (shift_enc start s)).
    { revert Cl. rewrite bit15 by (destruct I1; lia). destruct (Z.ltb_spec (a (shift_enc start s)) (2 ^ 15)) as [L | L]; cbn [negb]; [| auto].
      intros Cl. assert (I2 : Inv start 1 (2 ^ 15) (shift_enc start s)) by (destruct I1; constructor; try assumption; lia).
      apply (renorme_inv fuel start _ I2); [| exact Cl]. rewrite E1. rewrite Nat2Z.inj_succ, Z.pow_succ_r in Hf by lia. lia. }
    pose proof (shift_sync B off seg e m bk start s d HD I Re Cs) as R1. set (s1 := shift_enc start s) in *.
    revert Cl. rewrite bit15 by (destruct I1; lia). rewrite (r_a _ _ _ _ _ _ _ _ R1). change 32768 with (2 ^ 15).
    destruct (Z.ltb_spec (a s1) (2 ^ 15)) as [L | L]; cbn [negb]; intros Cl.
    + destruct (Z.leb_spec (2 ^ 15) (a s1)); [lia |].
      apply IH; try assumption.
      * destruct I1; constructor; try assumption; lia.
      * rewrite E1. rewrite Nat2Z.inj_succ, Z.pow_succ_r in Hf by lia. lia.
    + destruct (Z.leb_spec (2 ^ 15) (a s1)); [| lia]. exists (shift_dec d). split; [reflexivity | exact R1].
Qed.

Lemma decode_sync : forall B off seg e m bk start ctx b s d, Data B off seg e m -> Inv start (2 ^ 15) (2 ^ 16) s -> Rel B off seg e m bk s d ->
  0 <= b <= 1 -> Claim B (encode start ctx b s) ->
  exists d', decode ctx d = Some (b, d') /\ Rel B off seg e m bk (encode start ctx b s) d'.
Proof.
  intros B off seg e m bk start ctx b s d HD I Re Hbit Cl.
  destruct (encode_inv start ctx b s I) as (I' & Cs). destruct (Cs B Cl) as [Cp C0]. clear Cs.
  destruct (pick_facts start ctx b s I) as (N1 & N2 & N3 & N4 & N5 & N6).
  pose proof (inv_c start (2 ^ 15) (2 ^ 16) s ltac:(lia) I) as Ic. pose proof I as [_ Ha Hc Hct _ _ Hx _ _ _].
  pose proof (table_ok (ctxs s ctx) (Hx ctx)) as (Hq & Hm & _).
  pose proof (rel_bounds _ _ _ _ _ _ _ _ Re C0 ltac:(lia)) as Bd.
  (* the decoder's part of the interval *)
  set (dp := mkMqd (if lower s ctx b then dc d else dc d - qe_of (ctxs s ctx) * 2 ^ 16) (a (pick s ctx b)) (dct d) (eos d) (dbp d) (dend d) (dbuf d) (ctxs (pick s ctx b)) (backup d)).
  assert (Rp : Rel B off seg e m bk (pick s ctx b) dp).
  { destruct Re as [Ra Rx (j & ET & ED & EB) Rc Rb RM]. constructor; unfold dp; cbn [da dctxs dct dc dbp dbuf dend backup]; try assumption; try reflexivity.
    exists j. split; [exact ET |]. split; [| exact EB].
    assert (EL : low (pick s ctx b) = low s + (c (pick s ctx b) - c s)) by (unfold low, pick, cur, W; cbn [bp buf ct c]; lia).
    change (bp (pick s ctx b)) with (bp s). rewrite EL, ED. unfold pick. cbn [c]. destruct (lower s ctx b); lia. }
  pose proof (rel_bounds _ _ _ _ _ _ _ _ Rp Cp ltac:(cbn [pick ct]; lia)) as Bp.
  assert (Lo : lower s ctx b = (dc d / 2 ^ 16 <? qe_of (ctxs s ctx))).
  { revert Bp. unfold dp, pick. cbn [dc a]. destruct (lower s ctx b); intros Bp; symmetry.
    - apply Z.ltb_lt. apply Z.div_lt_upper_bound; lia.
    - apply Z.ltb_ge. apply Z.div_le_lower_bound; lia. }
  rewrite (encode_eq start ctx b s I) in Cl |- *.
  assert (ED : decode ctx d = if quick s ctx b then Some (b, mkMqd (dc dp) (da dp) (dct d) (eos d) (dbp d) (dend d) (dbuf d) (dctxs d) (backup d))
     else option_map (pair b) (renormd rounds dp)).
  { unfold decode. rewrite (r_x _ _ _ _ _ _ _ _ Re), (r_a _ _ _ _ _ _ _ _ Re). rewrite Z.shiftr_div_pow2 by lia. rewrite <- Lo.
    rewrite (u32_id (a s - _)) by lia. rewrite bit15 by lia.
    rewrite shl_id by lia. unfold dset, dset_ctxs. cbn [dc da dct eos dbp dend dbuf dctxs backup].
    assert (Eb : (if mps_of (ctxs s ctx) =? 0 then 1 else 0) = 1 - mps_of (ctxs s ctx)).
    { destruct (Z.eqb_spec (mps_of (ctxs s ctx)) 0); lia. }
    assert (Hsym : b = mps_of (ctxs s ctx) \/ b = 1 - mps_of (ctxs s ctx) /\ b <> mps_of (ctxs s ctx)) by lia.
    rewrite Eb. revert Bp Rp N4 N5. unfold dp. unfold quick, pick. cbn [dc a da ctxs]. rewrite (r_x _ _ _ _ _ _ _ _ Re).
    unfold lower at 1 2 3 5. unfold lower. set (i := ctxs s ctx) in *. intros Bp Rp N4 N5. clear Rp Cl Cp C0 HD I I'.
    destruct Hsym as [-> | [Hs1 Hs2]].
    - rewrite Z.eqb_refl in *. rewrite andb_true_r in *. cbn [Bool.eqb] in *.
      destruct (Z.ltb_spec (a s - qe_of i) (qe_of i)) as [L1 | L1]; cbn [Bool.eqb] in *.
      + destruct (Z.leb_spec (2 ^ 15) (a s - qe_of i)); [lia |]. reflexivity.
      + rewrite (u32_id (dc d - _)) by lia. destruct (Z.ltb_spec (a s - qe_of i) (2 ^ 15)) as [L2 | L2];
          destruct (Z.leb_spec (2 ^ 15) (a s - qe_of i)); try lia; reflexivity.
    - assert (Ebq : (b =? mps_of i) = false) by (apply Z.eqb_neq; exact Hs2). rewrite Ebq in *. rewrite andb_false_r in *. rewrite Hs1.
      destruct (Z.ltb_spec (a s - qe_of i) (qe_of i)) as [L1 | L1]; cbn [Bool.eqb] in *.
      + rewrite (u32_id (dc d - _)) by lia. destruct (Z.ltb_spec (a s - qe_of i) (2 ^ 15)) as [L2 | L2]; [reflexivity | lia].
      + reflexivity. }
  rewrite ED. destruct (quick s ctx b) eqn:Q.
  - eexists. split; [reflexivity |]. destruct Rp as [Ra' Rx' Rj' Rc' Rb' RM']. destruct Re as [Ra Rx Rj Rc Rb RM].
    constructor; cbn [da dctxs dct dc dbp dbuf dend backup set_ctxs a ctxs]; try assumption.
  - assert (I1 : Inv start 1 (2 ^ 15) (pick s ctx b)).
    { apply (inv_narrow start (2 ^ 15) (2 ^ 16) _ _ s); try reflexivity; try assumption. specialize (N5 eq_refl). lia. }
    destruct (renorm_sync B off seg e m bk start rounds _ dp HD I1 Rp ltac:(change (Z.of_nat rounds) with 32; lia) Cl) as (d' & E & Rd).
    rewrite E. exists d'. split; [reflexivity | exact Rd].
Qed.
