(** Each marker segment is read back. *)

From Coq Require Import ZArith List Bool Lia.
From Verif Require Import Ints I32 Mem CioModel CioProps MathModel MathProps HdrModel HdrSpec HdrBytes.
Import ListNotations.
Local Open Scope Z_scope.

Ltac lens := rewrite ?app_length, ?be_len by lia.
Ltac rdb := first [rewrite rd1 by lia | rewrite rd2 by lia | rewrite rd4 by lia].

(** ** SIZ *)
Definition siz_body (s : siz) : list Z :=
  be 2 (rsiz s) ++ be 4 (x1 s) ++ be 4 (y1 s) ++ be 4 (x0 s) ++ be 4 (y0 s) ++
  be 4 (tdx s) ++ be 4 (tdy s) ++ be 4 (tx0 s) ++ be 4 (ty0 s) ++ be 2 (numcomps s) ++
  flat_map write_comp (comps s).

Lemma comps_len : forall l, List.length (flat_map write_comp l) = (3 * List.length l)%nat.
Proof.
  induction l as [| c l IH]; [reflexivity |]. cbn [flat_map]. rewrite app_length, IH. unfold write_comp at 1. lens. cbn [List.length]. lia.
Qed.

Lemma siz_body_len : forall s, Z.of_nat (List.length (siz_body s)) = 36 + 3 * numcomps s.
Proof. intros s. unfold siz_body. lens. rewrite comps_len. unfold numcomps. lia. Qed.

Lemma write_siz_seg : forall s, siz_ok s -> write_siz s = seg (SIZ, siz_body s) /\ seg_ok (SIZ, siz_body s).
Proof.
  intros s (_ & _ & _ & Hn & _). unfold seg_ok, seg. cbn [fst snd]. rewrite siz_body_len. split; [| lia].
  unfold write_siz. rewrite (u32_id (3 * numcomps s)), (u32_id (40 + _)), u32_id by lia.
  replace (40 + 3 * numcomps s - 2) with (36 + 3 * numcomps s + 2) by lia. reflexivity.
Qed.

Lemma read_comps_write : forall l r, Forall comp_ok l -> read_comps (List.length l) (flat_map write_comp l ++ r) = Some (l, r).
Proof.
  induction l as [| c l IH]; intros r F; [reflexivity |]. inversion F as [| ? ? Hc Hl]; subst.
  destruct Hc as (Hp & Hs & Hx & Hy). cbn [List.length read_comps flat_map]. unfold write_comp at 1. rewrite <- !app_assoc.
  assert (E : u32 (u32 (c_prec c - 1) + u32 (Z.shiftl (c_sgnd c) 7)) = c_prec c - 1 + 128 * c_sgnd c).
  { rewrite Z.shiftl_mul_pow2 by lia. change (2 ^ 7) with 128.
    rewrite (u32_id (c_prec c - 1)), (u32_id (c_sgnd c * 128)), u32_id by lia. lia. }
  rewrite E. rdb. rdb. rdb.
  assert (L : Z.land (c_prec c - 1 + 128 * c_sgnd c) 127 = c_prec c - 1).
  { change 127 with (Z.ones 7). rewrite Z.land_ones by lia. change (2 ^ 7) with 128. rewrite Z.mul_comm, Z.mod_add by lia.
    apply Z.mod_small. lia. }
  rewrite L. cbv zeta. rewrite u32_id by lia.
  destruct (Z.ltb_spec (c_dx c) 1); [lia |]. destruct (Z.ltb_spec 255 (c_dx c)); [lia |].
  destruct (Z.ltb_spec (c_dy c) 1); [lia |]. destruct (Z.ltb_spec 255 (c_dy c)); [lia |]. cbn [orb].
  replace (c_prec c - 1 + 1) with (c_prec c) by lia. destruct (Z.ltb_spec 31 (c_prec c)); [lia |].
  rewrite IH by assumption.
  assert (R : Z.shiftr (c_prec c - 1 + 128 * c_sgnd c) 7 = c_sgnd c).
  { rewrite Z.shiftr_div_pow2 by lia. change (2 ^ 7) with 128. rewrite Z.mul_comm, Z.div_add by lia.
    rewrite Z.div_small by lia. lia. }
  rewrite R. destruct c; reflexivity.
Qed.

Lemma tile_count : forall i0 i1 t0 td, axis_ok i0 i1 t0 td ->
  exists q, uint_ceildiv (u32 (i1 - t0)) td = Some q /\ ceil_of (i1 - t0) td q /\ 1 <= q.
Proof.
  intros i0 i1 t0 td (A & B & C & D). rewrite u32_id by lia.
  destruct (c29_uint_ceildiv (i1 - t0) td) as (q & E & Q); [unfold is_u32; lia | unfold is_u32; lia | lia |].
  exists q. split; [exact E | split; [exact Q |]]. unfold ceil_of in Q. nia.
Qed.

Lemma tiles_checked : forall tw th, 1 <= tw -> 1 <= th -> (65535 / th <? tw) = negb (tw * th <=? 65535).
Proof.
  intros tw th Hw Hh. destruct (Z.ltb_spec (65535 / th) tw) as [H | H]; destruct (Z.leb_spec (tw * th) 65535) as [K | K]; try reflexivity; exfalso.
  - assert (tw <= 65535 / th) by (apply Z.div_le_lower_bound; lia). lia.
  - assert (th * (65535 / th) <= 65535) by (apply Z.mul_div_le; lia). nia.
Qed.

Lemma read_siz_body : forall ihdr s, siz_ok s -> fits ihdr s -> read_siz ihdr (siz_body s) = Some s.
Proof.
  intros ihdr s (Hr & Hx & Hy & Hn & Hc & (tw & th & Cw & Ch & Ht)) Hf. unfold read_siz. cbv zeta. rewrite siz_body_len.
  destruct (Z.ltb_spec (36 + 3 * numcomps s) 36); [lia |].
  replace (36 + 3 * numcomps s - 36) with (numcomps s * 3) by lia. rewrite Z.mod_mul, Z.div_mul by lia. cbn [Z.eqb negb].
  destruct (tile_count _ _ _ _ Hx) as (tw' & E1 & Q1 & P1). destruct (tile_count _ _ _ _ Hy) as (th' & E2 & Q2 & P2).
  assert (tw' = tw) by (eapply ceil_unique; [| exact Q1 | exact Cw]; unfold axis_ok in Hx; lia).
  assert (th' = th) by (eapply ceil_unique; [| exact Q2 | exact Ch]; unfold axis_ok in Hy; lia). subst tw' th'.
  destruct Hx as (X1 & X2 & X3 & X4). destruct Hy as (Y1 & Y2 & Y3 & Y4).
  unfold siz_body. rewrite <- (app_nil_r (flat_map write_comp (comps s))), <- ?app_assoc.
  rdb. rdb. rdb. rdb.
  rdb. rdb. rdb. rdb.
  rdb. rdb.
  destruct (Z.leb_spec 16385 (numcomps s)); [lia |]. destruct (Z.eqb_spec (numcomps s) 0); [lia |]. cbn [orb].
  rewrite Z.eqb_refl. cbn [negb].
  destruct (Z.leb_spec (x1 s) (x0 s)); [lia |]. destruct (Z.leb_spec (y1 s) (y0 s)); [lia |]. cbn [orb].
  destruct (Z.eqb_spec (tdx s) 0); [lia |]. destruct (Z.eqb_spec (tdy s) 0); [lia |]. cbn [orb].
  destruct (Z.ltb_spec (x0 s) (tx0 s)); [lia |]. destruct (Z.ltb_spec (y0 s) (ty0 s)); [lia |]. cbn [orb].
  destruct (Z.leb_spec (uint_adds (tx0 s) (tdx s)) (x0 s)) as [A | A]; [unfold uint_adds in A; lia |].
  destruct (Z.leb_spec (uint_adds (ty0 s) (tdy s)) (y0 s)) as [B | B]; [unfold uint_adds in B; lia |]. cbn [orb].
  assert (G : (0 <? fst ihdr) && (0 <? snd ihdr) &&
    (negb (fst ihdr =? u32 (x1 s - x0 s)) || negb (snd ihdr =? u32 (y1 s - y0 s))) = false).
  { rewrite !u32_id by lia. destruct Hf as [F | [F | F]].
    - destruct (Z.ltb_spec 0 (fst ihdr)); [lia | reflexivity].
    - destruct (Z.ltb_spec 0 (snd ihdr)); [lia | apply andb_false_iff; left; apply andb_false_r].
    - rewrite F. cbn [fst snd]. rewrite !Z.eqb_refl. apply andb_false_r. }
  rewrite G. unfold numcomps at 1. rewrite Nat2Z.id, read_comps_write by exact Hc. rewrite E1, E2.
  destruct (Z.eqb_spec tw 0); [lia |]. destruct (Z.eqb_spec th 0); [lia |]. cbn [orb].
  rewrite tiles_checked by lia. destruct (Z.leb_spec (tw * th) 65535); [| lia]. cbn [negb]. destruct s; reflexivity.
Qed.

(** ** The coding style of a component *)
Lemma land1_bit : forall v, (Z.land v 1 =? 0) = negb (Z.testbit v 0).
Proof.
  intros v. change 1 with (Z.ones 1). rewrite Z.land_ones by lia. change (2 ^ 1) with 2. rewrite <- Z.bit0_mod.
  destruct (Z.testbit v 0); reflexivity.
Qed.

Lemma fill_val : forall n i v m k, fill n i v m k = if (i <=? k) && (k <? i + Z.of_nat n) then v else m k.
Proof.
  induction n; intros i v m k; cbn [fill].
  - destruct (Z.leb_spec i k), (Z.ltb_spec k (i + Z.of_nat 0)); cbn [andb]; try reflexivity; lia.
  - rewrite IHn. unfold upd. destruct (Z.eqb_spec k i) as [-> | N].
    + destruct (Z.leb_spec (i + 1) i); [lia |]. cbn [andb]. rewrite Z.leb_refl. destruct (Z.ltb_spec i (i + Z.of_nat (S n))); [reflexivity | lia].
    + destruct (Z.leb_spec (i + 1) k), (Z.leb_spec i k), (Z.ltb_spec k (i + 1 + Z.of_nat n)), (Z.ltb_spec k (i + Z.of_nat (S n)));
        cbn [andb]; try reflexivity; lia.
Qed.

Lemma nibbles : forall a b, 0 <= a <= 15 -> 0 <= b <= 15 ->
  u32 (a + u32 (Z.shiftl b 4)) = a + 16 * b /\ Z.land (a + 16 * b) 15 = a /\ Z.shiftr (a + 16 * b) 4 = b.
Proof.
  intros a b Ha Hb. split; [| split].
  - rewrite Z.shiftl_mul_pow2 by lia. change (2 ^ 4) with 16. rewrite (u32_id (b * 16)), u32_id by lia. lia.
  - change 15 with (Z.ones 4). rewrite Z.land_ones by lia. change (2 ^ 4) with 16. rewrite Z.mul_comm, Z.mod_add by lia. apply Z.mod_small. lia.
  - rewrite Z.shiftr_div_pow2 by lia. change (2 ^ 4) with 16. rewrite Z.mul_comm, Z.div_add by lia. rewrite Z.div_small by lia. lia.
Qed.

Lemma write_prcs_len : forall t n i, List.length (flat_map (write_prc t) (seq i n)) = n.
Proof. intros t. induction n; intros i; [reflexivity |]. cbn [seq flat_map]. rewrite app_length, IHn. unfold write_prc. lens. reflexivity. Qed.

Lemma read_prcs_write : forall t reduce n i w h r, style_ok reduce t -> Z.of_nat i + Z.of_nat n <= numres t ->
  exists w' h', read_prcs n (Z.of_nat i) (flat_map (write_prc t) (seq i n) ++ r) w h = Some (w', h', r) /\
    (forall k, Z.of_nat i <= k < Z.of_nat i + Z.of_nat n -> w' k = prcw t k /\ h' k = prch t k) /\
    (forall k, k < Z.of_nat i \/ Z.of_nat i + Z.of_nat n <= k -> w' k = w k /\ h' k = h k).
Proof.
  intros t reduce n. induction n; intros i w h r Hs Hi.
  - cbn [read_prcs seq flat_map app]. exists w, h. split; [reflexivity |]. split; intros k Hk; [lia | split; reflexivity].
  - cbn [read_prcs seq flat_map]. assert (Hp := Hs). destruct Hp as (_ & _ & _ & _ & _ & _ & _ & Hp).
    destruct (Hp (Z.of_nat i) ltac:(lia)) as (P1 & P2 & P3).
    destruct (nibbles _ _ P1 P2) as (N1 & N2 & N3). unfold write_prc at 1. rewrite N1, <- app_assoc; rdb.
    rewrite N2, N3.
    assert (C : negb (Z.of_nat i =? 0) && ((prcw t (Z.of_nat i) =? 0) || (prch t (Z.of_nat i) =? 0)) = false).
    { destruct (Z.eqb_spec (Z.of_nat i) 0) as [| N]; [reflexivity |]. destruct (P3 N) as [Q1 Q2].
      destruct (Z.eqb_spec (prcw t (Z.of_nat i)) 0); [contradiction |]. destruct (Z.eqb_spec (prch t (Z.of_nat i)) 0); [contradiction | reflexivity]. }
    rewrite C. destruct (IHn (S i) (upd w (Z.of_nat i) (prcw t (Z.of_nat i))) (upd h (Z.of_nat i) (prch t (Z.of_nat i))) r Hs ltac:(lia))
      as (w' & h' & E & V & O).
    replace (Z.of_nat i + 1) with (Z.of_nat (S i)) by lia. exists w', h'. split; [exact E |]. split; intros k Hk.
    + destruct (Z.eq_dec k (Z.of_nat i)) as [-> | N]; [| apply V; lia].
      destruct (O (Z.of_nat i) ltac:(lia)) as [O1 O2]. rewrite O1, O2, !upd_same. split; reflexivity.
    + destruct (O k ltac:(lia)) as [O1 O2]. rewrite O1, O2, !upd_other by lia. split; reflexivity.
Qed.

(** The element written for [t] and read into [u], which has the same precinct bit. *)
Definition sp_body (t : tccp) : list Z :=
  be 1 (numres t - 1) ++ be 1 (cblkw t - 2) ++ be 1 (cblkh t - 2) ++ be 1 (cblksty t) ++ be 1 (qmfbid t) ++
  (if Z.testbit (csty t) 0 then flat_map (write_prc t) (seq 0 (Z.to_nat (numres t))) else []).
Definition spsize (t : tccp) : Z := 5 + if Z.testbit (csty t) 0 then numres t else 0.

Lemma sp_size_eq : forall reduce t, style_ok reduce t -> sp_size t = spsize t.
Proof.
  intros reduce t (Hn & _). unfold sp_size, spsize. rewrite land1_bit. destruct (Z.testbit (csty t) 0); cbn [negb]; [apply u32_id; lia | reflexivity].
Qed.

Lemma sp_body_len : forall reduce t, style_ok reduce t -> Z.of_nat (List.length (sp_body t)) = spsize t.
Proof.
  intros reduce t (Hn & _). unfold sp_body, spsize. lens. destruct (Z.testbit (csty t) 0); [rewrite write_prcs_len | cbn [List.length]]; lia.
Qed.

Lemma write_sp_body : forall reduce t, style_ok reduce t -> write_sp t (spsize t) = (sp_body t, Some 0).
Proof.
  intros reduce t (Hn & _ & Hw & Hh & _). unfold write_sp, sp_body, spsize. rewrite land1_bit. rewrite !u32_id by lia.
  destruct (Z.testbit (csty t) 0); cbn [negb].
  - destruct (Z.ltb_spec (5 + numres t) 5); [lia |]. destruct (Z.ltb_spec (5 + numres t - 5) (numres t)); [lia |].
    rewrite <- ?app_assoc. f_equal. f_equal. lia.
  - cbn [Z.add Z.ltb Z.compare Pos.compare Pos.compare_cont Pos.add Z.sub Z.opp Z.pos_sub]. rewrite app_nil_r. reflexivity.
Qed.

Lemma bit7 : forall v, 0 <= v < 128 -> Z.land v 128 = 0.
Proof.
  intros v Hv. apply Z.bits_inj'. intros n Hn. rewrite Z.land_spec, Z.bits_0. change 128 with (2 ^ 7). rewrite Z.pow2_bits_eqb by lia.
  destruct (Z.eqb_spec 7 n) as [<- | N]; [| apply andb_false_r]. rewrite andb_true_r.
  destruct (Z.eq_dec v 0) as [-> | NZ]; [reflexivity |]. apply Z.bits_above_log2; [lia |]. apply Z.log2_lt_pow2; lia.
Qed.

(** Parts of the component parameters that a segment does not touch. *)
Definition keeps_quant (a b : tccp) : Prop :=
  qntsty b = qntsty a /\ numgbits b = numgbits a /\ (forall i, expn b i = expn a i) /\ (forall i, mant b i = mant a i).
Definition keeps_style (a b : tccp) : Prop :=
  csty b = csty a /\ numres b = numres a /\ cblkw b = cblkw a /\ cblkh b = cblkh a /\ cblksty b = cblksty a /\ qmfbid b = qmfbid a /\
  (forall i, prcw b i = prcw a i) /\ (forall i, prch b i = prch a i).
Definition keeps_rest (a b : tccp) : Prop := roishift b = roishift a /\ dcshift b = dcshift a.

Lemma read_sp_body : forall reduce t u, style_ok reduce t -> default_prc t -> Z.testbit (csty u) 0 = Z.testbit (csty t) 0 ->
  exists u', read_sp reduce u (sp_body t) = Some (u', []) /\ same_style t u' /\ csty u' = csty u /\ keeps_quant u u' /\ keeps_rest u u'.
Proof.
  intros reduce t u Hs Hd Hb. pose proof (sp_body_len _ _ Hs) as HL. assert (Hs' := Hs).
  destruct Hs as (Hn & Hr & Hw & Hh & Hwh & Hc & Hq & Hp). unfold read_sp. rewrite HL.
  assert (H5 : 5 <= spsize t) by (unfold spsize; destruct (Z.testbit (csty t) 0); lia).
  destruct (Z.ltb_spec (spsize t) 5); [lia |]. unfold sp_body.
  rdb. cbv zeta. replace (u32 (numres t - 1 + 1)) with (numres t) by (rewrite u32_id; lia).
  destruct (Z.ltb_spec 33 (numres t)); [lia |]. destruct (Z.leb_spec (numres t) reduce); [lia |].
  rdb. replace (u32 (cblkw t - 2 + 2)) with (cblkw t) by (rewrite u32_id; lia).
  rdb. replace (u32 (cblkh t - 2 + 2)) with (cblkh t) by (rewrite u32_id; lia).
  rewrite (u32_id (cblkw t + cblkh t)) by lia.
  destruct (Z.ltb_spec 10 (cblkw t)); [lia |]. destruct (Z.ltb_spec 10 (cblkh t)); [lia |]. destruct (Z.ltb_spec 12 (cblkw t + cblkh t)); [lia |].
  cbn [orb]. rdb. rewrite bit7 by lia. cbn [Z.eqb negb]. rdb.
  destruct (Z.ltb_spec 1 (qmfbid t)); [lia |]. rewrite land1_bit, Hb. unfold default_prc in Hd.
  destruct (Z.testbit (csty t) 0) eqn:Eb; cbn [negb].
  - rewrite write_prcs_len. destruct (Z.ltb_spec (Z.of_nat (Z.to_nat (numres t))) (numres t)); [lia |].
    destruct (read_prcs_write t reduce (Z.to_nat (numres t)) 0 (prcw u) (prch u) [] Hs' ltac:(lia)) as (w' & h' & E & V & _).
    rewrite app_nil_r in E. change (Z.of_nat 0) with 0 in *. rewrite E. eexists. split; [reflexivity |].
    unfold same_style, keeps_quant, keeps_rest. cbn [csty numres cblkw cblkh cblksty qmfbid prcw prch qntsty numgbits expn mant roishift dcshift].
    split; [| repeat split]. split; [congruence |]. repeat (split; [reflexivity |]).
    intros r Hrr. destruct (V r ltac:(lia)) as [V1 V2]. split; symmetry; assumption.
  - eexists. split; [reflexivity |].
    unfold same_style, keeps_quant, keeps_rest. cbn [csty numres cblkw cblkh cblksty qmfbid prcw prch qntsty numgbits expn mant roishift dcshift].
    split; [| repeat split]. split; [congruence |]. repeat (split; [reflexivity |]).
    intros r Hrr. destruct (Hd eq_refl r Hrr) as [V1 V2]. rewrite !fill_val.
    destruct (Z.leb_spec 0 r); [| lia]. destruct (Z.ltb_spec r (0 + Z.of_nat (Z.to_nat (numres t)))); [| lia]. cbn [andb]. split; assumption.
Qed.

(** ** Quantisation *)
Definition nbands (t : tccp) : Z := if qntsty t =? 1 then 1 else 3 * numres t - 2.

Lemma num_bands_eq : forall t, 1 <= numres t <= 33 -> num_bands t = nbands t /\ 1 <= nbands t <= 97.
Proof. intros t H. unfold num_bands, nbands. destruct (qntsty t =? 1); [lia |]. rewrite (u32_id (numres t * 3)), u32_id by lia. lia. Qed.

Definition sqsize (t : tccp) : Z := 1 + (if qntsty t =? 0 then 1 else 2) * nbands t.

Lemma sq_size_eq : forall t, 1 <= numres t <= 33 -> sq_size t = sqsize t.
Proof.
  intros t H. destruct (num_bands_eq t H) as [E B]. unfold sq_size, sqsize. rewrite E.
  destruct (qntsty t =? 0); [rewrite u32_id; lia |]. rewrite (u32_id (2 * nbands t)), u32_id by lia. lia.
Qed.

Definition write_step (t : tccp) (i : nat) : list Z :=
  if qntsty t =? 0 then be 1 (u32 (Z.shiftl (u32 (expn t (Z.of_nat i))) 3))
  else be 2 (u32 (u32 (Z.shiftl (u32 (expn t (Z.of_nat i))) 11) + u32 (mant t (Z.of_nat i)))).

Lemma write_steps_len : forall t n i,
  List.length (flat_map (write_step t) (seq i n)) = ((if (qntsty t =? 0)%Z then 1 else 2) * n)%nat.
Proof.
  intros t. induction n; intros i; [destruct (qntsty t =? 0); reflexivity |]. cbn [seq flat_map]. rewrite app_length, IHn. unfold write_step.
  destruct (qntsty t =? 0); lens; lia.
Qed.

Lemma sq_len : forall t, 1 <= numres t <= 33 -> Z.of_nat (List.length (write_sq t)) = sqsize t.
Proof.
  intros t H. destruct (num_bands_eq t H) as [E B]. unfold write_sq, sqsize. fold (write_step t). lens. rewrite write_steps_len, E.
  destruct (qntsty t =? 0); lia.
Qed.

Lemma step_value : forall e m, 0 <= e < 32 -> 0 <= m < 2048 ->
  u32 (Z.shiftl (u32 e) 3) = 8 * e /\ u32 (u32 (Z.shiftl (u32 e) 11) + u32 m) = 2048 * e + m.
Proof.
  intros e m He Hm. rewrite !Z.shiftl_mul_pow2 by lia. change (2 ^ 3) with 8. change (2 ^ 11) with 2048.
  rewrite (u32_id e) by lia. rewrite (u32_id (e * 8)), (u32_id (e * 2048)), (u32_id m), u32_id by lia. split; lia.
Qed.

Lemma step_read : forall e m, 0 <= e < 32 -> 0 <= m < 2048 ->
  Z.shiftr (8 * e) 3 = e /\ Z.shiftr (2048 * e + m) 11 = e /\ Z.land (2048 * e + m) 2047 = m.
Proof.
  intros e m He Hm. rewrite !Z.shiftr_div_pow2 by lia. change 2047 with (Z.ones 11). rewrite Z.land_ones by lia.
  change (2 ^ 3) with 8. change (2 ^ 11) with 2048. split; [| split].
  - rewrite Z.mul_comm, Z.div_mul by lia. reflexivity.
  - rewrite Z.mul_comm, Z.div_add_l by lia. rewrite Z.div_small by lia. lia.
  - rewrite Z.add_comm, Z.mul_comm, Z.mod_add by lia. apply Z.mod_small. lia.
Qed.

Lemma read_steps_write : forall t n i e m r,
  (forall b, Z.of_nat i <= b < Z.of_nat i + Z.of_nat n -> 0 <= expn t b < 32 /\ 0 <= mant t b < 2048) ->
  Z.of_nat i + Z.of_nat n <= 97 ->
  exists e' m', read_steps (if qntsty t =? 0 then 1 else 2) n (Z.of_nat i) (flat_map (write_step t) (seq i n) ++ r) e m = Some (e', m', r) /\
    (forall k, Z.of_nat i <= k < Z.of_nat i + Z.of_nat n -> e' k = expn t k /\ m' k = if qntsty t =? 0 then 0 else mant t k) /\
    (forall k, k < Z.of_nat i \/ Z.of_nat i + Z.of_nat n <= k -> e' k = e k /\ m' k = m k).
Proof.
  intros t n. induction n; intros i e m r Hb Hi.
  - cbn [read_steps seq flat_map app]. exists e, m. split; [reflexivity |]. split; intros k Hk; [lia | split; reflexivity].
  - destruct (Hb (Z.of_nat i) ltac:(lia)) as [He Hm]. destruct (step_value _ _ He Hm) as [V1 V2]. destruct (step_read _ _ He Hm) as (R1 & R2 & R3).
    cbn [seq flat_map]. rewrite <- app_assoc. unfold write_step at 1.
    specialize (IHn (S i)). replace (Z.of_nat (S i)) with (Z.of_nat i + 1) in IHn by lia.
    destruct (qntsty t =? 0) eqn:Eq; cbn [read_steps Nat.eqb].
    + rewrite V1; rdb. destruct (Z.ltb_spec (Z.of_nat i) 97); [| lia]. rewrite R1.
      destruct (IHn (upd e (Z.of_nat i) (expn t (Z.of_nat i))) (upd m (Z.of_nat i) 0) r) as (e' & m' & E & V & O);
        [intros b Hbb; apply Hb; lia | lia |].
      exists e', m'. split; [exact E |]. split; intros k Hk.
      * destruct (Z.eq_dec k (Z.of_nat i)) as [-> | N]; [| apply V; lia].
        destruct (O (Z.of_nat i) ltac:(lia)) as [O1 O2]. rewrite O1, O2, !upd_same. split; reflexivity.
      * destruct (O k ltac:(lia)) as [O1 O2]. rewrite O1, O2, !upd_other by lia. split; reflexivity.
    + rewrite V2; rdb. destruct (Z.ltb_spec (Z.of_nat i) 97); [| lia]. rewrite R2, R3.
      destruct (IHn (upd e (Z.of_nat i) (expn t (Z.of_nat i))) (upd m (Z.of_nat i) (mant t (Z.of_nat i))) r) as (e' & m' & E & V & O);
        [intros b Hbb; apply Hb; lia | lia |].
      exists e', m'. split; [exact E |]. split; intros k Hk.
      * destruct (Z.eq_dec k (Z.of_nat i)) as [-> | N]; [| apply V; lia].
        destruct (O (Z.of_nat i) ltac:(lia)) as [O1 O2]. rewrite O1, O2, !upd_same. split; reflexivity.
      * destruct (O k ltac:(lia)) as [O1 O2]. rewrite O1, O2, !upd_other by lia. split; reflexivity.
Qed.

Lemma qnt_byte : forall q g, 0 <= q <= 2 -> 0 <= g <= 7 ->
  u32 (q + u32 (Z.shiftl g 5)) = q + 32 * g /\ Z.land (q + 32 * g) 31 = q /\ Z.shiftr (q + 32 * g) 5 = g.
Proof.
  intros q g Hq Hg. rewrite Z.shiftl_mul_pow2, Z.shiftr_div_pow2 by lia. change 31 with (Z.ones 5). rewrite Z.land_ones by lia.
  change (2 ^ 5) with 32. rewrite (u32_id (g * 32)), u32_id by lia. split; [lia |]. split.
  - rewrite Z.mul_comm, Z.mod_add by lia. apply Z.mod_small. lia.
  - rewrite Z.mul_comm, Z.div_add by lia. rewrite Z.div_small by lia. lia.
Qed.

Lemma read_sq_write : forall t u, 1 <= numres t <= 33 -> quant_ok t ->
  exists u', read_sq u (write_sq t) = Some (u', []) /\ same_quant t u' /\ keeps_style u u' /\ keeps_rest u u'.
Proof.
  intros t u Hn (Hq & Hg & Hb). destruct (num_bands_eq t Hn) as [En Bn]. unfold read_sq, write_sq.
  destruct (qnt_byte _ _ Hq Hg) as (Q1 & Q2 & Q3). rewrite Q1; rdb. rewrite Q2, Q3. cbv zeta.
  fold (write_step t). rewrite write_steps_len, En.
  assert (Ec : (if qntsty t =? 1 then 1 else if qntsty t =? 0 then Z.of_nat ((if (qntsty t =? 0)%Z then 1 else 2) * Z.to_nat (nbands t))
                else Z.of_nat ((if (qntsty t =? 0)%Z then 1 else 2) * Z.to_nat (nbands t)) / 2) = nbands t).
  { destruct (qntsty t =? 1) eqn:E1; [unfold nbands; rewrite E1; reflexivity |]. destruct (qntsty t =? 0); [lia |].
    replace (Z.of_nat (2 * Z.to_nat (nbands t))) with (nbands t * 2) by lia. apply Z.div_mul. lia. }
  rewrite Ec. destruct (read_steps_write t (Z.to_nat (nbands t)) 0 (expn u) (mant u) []) as (e' & m' & E & V & O).
  { intros b Hbb. apply Hb. unfold nbands, bands in *. destruct (qntsty t =? 1); lia. }
  { lia. }
  rewrite app_nil_r in E. change (Z.of_nat 0) with 0 in *. rewrite E. eexists. split; [reflexivity |].
  unfold same_quant, keeps_style, keeps_rest. cbn [csty numres cblkw cblkh cblksty qmfbid prcw prch qntsty numgbits expn mant roishift dcshift].
  split; [| repeat split]. split; [reflexivity |]. split; [reflexivity |]. intros i Hi. unfold step.
  destruct (Z.eqb_spec (qntsty t) 1) as [E1 | N1]; cbn [andb].
  - assert (nbands t = 1) by (unfold nbands; rewrite E1; reflexivity). destruct (V 0 ltac:(lia)) as [V1 V2].
    rewrite E1 in V2. cbn [Z.eqb Pos.eqb] in V2. assert (Hi' : bands t = 97) by (unfold bands; rewrite E1; reflexivity).
    unfold derive_e, derive_m. destruct (Z.ltb_spec 0 i).
    + destruct (Z.leb_spec 1 i); [| lia]. destruct (Z.ltb_spec i 97); [| lia]. cbn [andb]. rewrite V1, V2. reflexivity.
    + assert (i = 0) by lia. subst i. change (1 <=? 0) with false. cbn [andb]. rewrite E1. cbn [Z.eqb Pos.eqb]. rewrite V1, V2. reflexivity.
  - assert (nbands t = bands t) by (unfold nbands, bands; destruct (Z.eqb_spec (qntsty t) 1); [contradiction | reflexivity]).
    destruct (V i ltac:(lia)) as [V1 V2]. rewrite V1, V2. reflexivity.
Qed.
