(** Proof that what the main header reader accepts is in range. *)

From Coq Require Import ZArith List Bool Lia.
From Verif Require Import Ints I32 Mem CioModel CioProps MathModel MathProps HdrModel HdrSpec HdrBytes HdrSegs HdrRun.
Import ListNotations.
Local Open Scope Z_scope.

Lemma some_inj : forall (A : Type) (a b : A), Some a = Some b -> a = b.
Proof. congruence. Qed.

Ltac next H :=
  match type of H with
  | match rd ?n ?d with Some _ => _ | None => None end = Some _ =>
      let E := fresh "E" in destruct (rd n d) as [[? ?] |] eqn:E; [| discriminate H]
  | (if ?b then None else _) = Some _ => let E := fresh "E" in destruct b eqn:E; [discriminate H |]
  end.

Lemma byte_land : forall v k, 0 <= v -> 0 <= k -> 0 <= Z.land v (Z.ones k) < 2 ^ k.
Proof. intros v k Hv Hk. rewrite Z.land_ones by lia. apply Z.mod_pos_bound. apply Z.pow_pos_nonneg; lia. Qed.

Lemma read_comps_ok : forall n d cs r, bytes d -> read_comps n d = Some (cs, r) ->
  Forall comp_ok cs /\ List.length cs = n.
Proof.
  induction n as [| n IH]; intros d cs r B H; cbn [read_comps] in H.
  - assert (cs = []) by congruence. subst. split; [constructor | reflexivity].
  - next H. next H. next H. cbv zeta in H.
    destruct (rd_inv _ _ _ _ B E) as (V1 & B1 & _). destruct (rd_inv _ _ _ _ B1 E0) as (V2 & B2 & _). destruct (rd_inv _ _ _ _ B2 E1) as (V3 & B3 & _).
    cbn in V1, V2, V3. next H. next H.
    destruct (read_comps n l1) as [[cs' r'] |] eqn:R; [| discriminate].
    destruct (IH _ _ _ B3 R) as [F L].
    apply (f_equal (fun o => match o with Some p => fst p | None => [] end)) in H. cbn [fst] in H. subst cs.
    split; [| cbn; lia]. constructor; [| exact F]. unfold comp_ok. cbn [c_prec c_sgnd c_dx c_dy].
    pose proof (byte_land z 7 ltac:(lia) ltac:(lia)) as L7. change (Z.ones 7) with 127 in L7. change (2 ^ 7) with 128 in L7.
    rewrite u32_id in * by lia. rewrite Z.shiftr_div_pow2 by lia. change (2 ^ 7) with 128. lia.
Qed.

Lemma bytes4 : 256 ^ Z.of_nat 4 = 2 ^ 32. Proof. reflexivity. Qed.
Lemma bytes2 : 256 ^ Z.of_nat 2 = 65536. Proof. reflexivity. Qed.
Lemma bytes1 : 256 ^ Z.of_nat 1 = 256. Proof. reflexivity. Qed.

Lemma fits_of : forall ihdr a b, 0 < a < 2 ^ 32 -> 0 < b < 2 ^ 32 ->
  (0 <? fst ihdr) && (0 <? snd ihdr) && (negb (fst ihdr =? u32 a) || negb (snd ihdr =? u32 b)) = false ->
  fst ihdr <= 0 \/ snd ihdr <= 0 \/ ihdr = (a, b).
Proof.
  intros [u v] a b Ha Hb H. cbn [fst snd] in *. rewrite !u32_id in H by lia.
  destruct (Z.ltb_spec 0 u); [| lia]. destruct (Z.ltb_spec 0 v); [| lia]. cbn [andb] in H. apply orb_false_iff in H. destruct H as [P Q].
  apply negb_false_iff in P, Q. apply Z.eqb_eq in P, Q. subst. right. right. reflexivity.
Qed.

Lemma read_siz_ok : forall ihdr d s, bytes d -> read_siz ihdr d = Some s -> siz_ok s /\ fits ihdr s.
Proof.
  intros ihdr d s B H. unfold read_siz in H. cbv zeta in H. next H. next H.
  do 10 next H.
  repeat match goal with B : bytes ?d, E : rd _ ?d = Some (_, _) |- _ =>
    let V := fresh "V" in let B' := fresh "B" in destruct (rd_inv _ _ _ _ B E) as (V & B' & _); clear E end.
  rewrite ?bytes4, ?bytes2 in *.
  do 6 next H.
  match type of H with match read_comps ?n ?d with _ => _ end = _ => destruct (read_comps n d) as [[cs r] |] eqn:R; [| discriminate] end.
  destruct (read_comps_ok _ _ _ _ B9 R) as [F L].
  apply orb_false_iff in E1, E3, E4. destruct E1 as [N1 N2]. destruct E3 as [X1 X2]. destruct E4 as [T1 T2].
  apply orb_false_iff in E5. destruct E5 as [E5 Q4]. apply orb_false_iff in E5. destruct E5 as [E5 Q3].
  apply orb_false_iff in E5. destruct E5 as [Q1 Q2].
  apply Z.leb_gt in N1, X1, X2, Q3, Q4. apply Z.eqb_neq in N2, T1, T2. apply Z.ltb_ge in Q1, Q2. unfold uint_adds in Q3, Q4.
  apply fits_of in E6; [| lia | lia].
  match type of H with match uint_ceildiv (u32 (?i1 - ?t0)) ?td with _ => _ end = _ =>
    assert (Ax : axis_ok z2 z0 z6 z4) by (unfold axis_ok; lia) end.
  assert (Ay : axis_ok z3 z1 z7 z5) by (unfold axis_ok; lia).
  destruct (tile_count _ _ _ _ Ax) as (tw & Ew & Cw & Pw). destruct (tile_count _ _ _ _ Ay) as (th & Eh & Ch & Ph).
  rewrite Ew, Eh in H. rewrite tiles_checked in H by lia.
  destruct (Z.eqb_spec tw 0); [lia |]. destruct (Z.eqb_spec th 0); [lia |]. cbn [orb] in H.
  destruct (Z.leb_spec (tw * th) 65535) as [Hp |]; [| discriminate]. cbn [negb] in H.
  assert (Es : s = mkSiz z z0 z1 z2 z3 z4 z5 z6 z7 cs) by congruence. subst s.
  split; [| exact E6]. unfold siz_ok, numcomps, tiles_ok. cbn [rsiz x0 x1 y0 y1 tx0 ty0 tdx tdy comps]. rewrite L, Z2Nat.id by lia.
  split; [lia |]. split; [exact Ax |]. split; [exact Ay |]. split; [lia |]. split; [exact F |]. exists tw, th. tauto.
Qed.

Lemma read_prcs_ok : forall n i d w h w' h' r, bytes d -> read_prcs n i d w h = Some (w', h', r) -> 0 <= i ->
  (forall k, ~ i <= k < i + Z.of_nat n -> w' k = w k /\ h' k = h k) /\
  (forall k, i <= k < i + Z.of_nat n -> 0 <= w' k <= 15 /\ 0 <= h' k <= 15 /\ (k <> 0 -> w' k <> 0 /\ h' k <> 0)) /\ bytes r.
Proof.
  induction n as [| n IH]; intros i d w h w' h' r B H Hi; cbn [read_prcs] in H.
  - assert (w' = w /\ h' = h /\ r = d) as (-> & -> & ->) by (repeat split; congruence). split; [tauto |]. split; [intros; lia | exact B].
  - next H. destruct (rd_inv _ _ _ _ B E) as (V & B1 & _). rewrite bytes1 in V. next H.
    destruct (IH _ _ _ _ _ _ _ B1 H ltac:(lia)) as (I1 & I2 & I3). split; [| split; [| exact I3]].
    + intros k Hk. destruct (I1 k ltac:(lia)) as [P Q]. rewrite P, Q. unfold upd. destruct (Z.eqb_spec k i); [lia | tauto].
    + intros k Hk. destruct (Z.eq_dec k i) as [-> | Hn]; [| apply I2; lia].
      destruct (I1 i ltac:(lia)) as [P Q]. rewrite P, Q. unfold upd. rewrite Z.eqb_refl.
      pose proof (byte_land z 4 ltac:(lia) ltac:(lia)) as L4. change (Z.ones 4) with 15 in L4. change (2 ^ 4) with 16 in L4.
      split; [lia |]. split; [rewrite Z.shiftr_div_pow2 by lia; change (2 ^ 4) with 16; lia |].
      intros Hn0. destruct (Z.eqb_spec i 0); [lia |]. cbn [negb andb] in E0. apply orb_false_iff in E0. destruct E0 as [P0 Q0].
      apply Z.eqb_neq in P0, Q0. tauto.
Qed.

Lemma high_bit : forall v, 0 <= v < 256 -> negb (Z.land v 128 =? 0) = false -> v < 128.
Proof.
  intros v Hv H. apply negb_false_iff, Z.eqb_eq in H. destruct (Z.lt_ge_cases v 128) as [| G]; [assumption |]. exfalso.
  assert (T : Z.testbit (Z.land v 128) 7 = true).
  { rewrite Z.land_spec. change (Z.testbit 128 7) with true. rewrite andb_true_r. rewrite Z.testbit_true by lia. change (2 ^ 7) with 128.
    replace (v / 128) with 1 by (apply Z.div_unique with (v - 128); lia). reflexivity. }
  rewrite H in T. discriminate.
Qed.

(** What [read_sp] changes and keeps. *)
Lemma read_sp_ok : forall reduce t d t' r, bytes d -> read_sp reduce t d = Some (t', r) ->
  style_ok reduce t' /\ csty t' = csty t /\ qntsty t' = qntsty t /\ numgbits t' = numgbits t /\ expn t' = expn t /\ mant t' = mant t /\
  roishift t' = roishift t /\ dcshift t' = dcshift t.
Proof.
  intros reduce t d t' r B H. unfold read_sp in H. cbv zeta in H. next H. next H. next H. next H. next H. next H. next H. next H. next H. next H. next H.
  repeat match goal with B : bytes ?d, E : rd _ ?d = Some (_, _) |- _ =>
    let V := fresh "V" in let B' := fresh "B" in destruct (rd_inv _ _ _ _ B E) as (V & B' & _); clear E end.
  rewrite ?bytes1 in *. apply high_bit in E7; [| lia].
  rewrite !(u32_id (z + 1)) in * by lia. rewrite !(u32_id (z0 + 2)), !(u32_id (z1 + 2)) in * by lia. rewrite !(u32_id (z0 + 2 + (z1 + 2))) in * by lia.
  destruct (Z.land (csty t) 1 =? 0).
  - assert (Et : t' = mkT (csty t) (z + 1) (z0 + 2) (z1 + 2) z2 z3 (fill (Z.to_nat (z + 1)) 0 15 (prcw t)) (fill (Z.to_nat (z + 1)) 0 15 (prch t))
      (qntsty t) (numgbits t) (expn t) (mant t) (roishift t) (dcshift t)) by congruence.
    clear H. subst t'. split; [| repeat split]. unfold style_ok. cbn [numres cblkw cblkh cblksty qmfbid prcw prch].
    repeat (split; [lia |]). intros q Hq. rewrite !fill_val. destruct (Z.leb_spec 0 q); [| lia]. destruct (Z.ltb_spec q (0 + Z.of_nat (Z.to_nat (z + 1)))); [| lia].
    cbn [andb]. lia.
  - next H. match type of H with match ?X with Some _ => _ | None => None end = _ => destruct X as [[[w h] dd] |] eqn:R; [| discriminate] end.
    destruct (read_prcs_ok _ _ _ _ _ _ _ _ ltac:(eassumption) R ltac:(lia)) as (_ & P & _).
    assert (Et : t' = mkT (csty t) (z + 1) (z0 + 2) (z1 + 2) z2 z3 w h
      (qntsty t) (numgbits t) (expn t) (mant t) (roishift t) (dcshift t)) by congruence.
    clear H. subst t'. split; [| repeat split]. unfold style_ok. cbn [numres cblkw cblkh cblksty qmfbid prcw prch].
    repeat (split; [lia |]). intros q Hq. apply P. lia.
Qed.

Definition steps_range (e m : mem) : Prop := forall b, 0 <= b < 97 -> 0 <= e b <= 31 /\ 0 <= m b <= 2047.

Lemma read_steps_ok : forall w n i d e m e' m' r, (w = 1 \/ w = 2)%nat -> bytes d -> steps_range e m ->
  read_steps w n i d e m = Some (e', m', r) -> steps_range e' m'.
Proof.
  intros w. induction n as [| n IH]; intros i d e m e' m' r Hw B S H; cbn [read_steps] in H.
  - assert (e' = e /\ m' = m) as (-> & ->) by (split; congruence). exact S.
  - next H. destruct (rd_inv _ _ _ _ B E) as (V & B1 & _). destruct (i <? 97).
    + destruct Hw as [-> | ->]; cbn [Nat.eqb] in H.
      * rewrite bytes1 in V. apply IH in H; [exact H | lia | exact B1 |]. intros b Hb. destruct (S b Hb) as [S1 S2].
        unfold upd. rewrite Z.shiftr_div_pow2 by lia. change (2 ^ 3) with 8. destruct (b =? i); lia.
      * rewrite bytes2 in V. apply IH in H; [exact H | lia | exact B1 |]. intros b Hb. destruct (S b Hb) as [S1 S2].
        pose proof (byte_land z 11 ltac:(lia) ltac:(lia)) as L. change (Z.ones 11) with 2047 in L. change (2 ^ 11) with 2048 in L.
        unfold upd. rewrite Z.shiftr_div_pow2 by lia. change (2 ^ 11) with 2048. destruct (b =? i); lia.
    + apply IH in H; [exact H | lia | exact B1 | exact S].
Qed.

Lemma derived_range : forall e m, steps_range e m -> steps_range (derive_e e) (derive_m m).
Proof.
  intros e m S b Hb. unfold derive_e, derive_m. destruct (S 0 ltac:(lia)) as [S1 S2]. destruct (S b Hb) as [S3 S4].
  destruct ((1 <=? b) && (b <? 97)) eqn:E; [| tauto]. pose proof (Z.div_pos (b - 1) 3). lia.
Qed.

Definition same_sp (t t' : tccp) : Prop :=
  csty t' = csty t /\ numres t' = numres t /\ cblkw t' = cblkw t /\ cblkh t' = cblkh t /\ cblksty t' = cblksty t /\ qmfbid t' = qmfbid t /\
  prcw t' = prcw t /\ prch t' = prch t /\ roishift t' = roishift t /\ dcshift t' = dcshift t.

Lemma style_same_sp : forall reduce t t', same_sp t t' -> style_ok reduce t -> style_ok reduce t'.
Proof. intros reduce t t' (E1 & E2 & E3 & E4 & E5 & E6 & E7 & E8 & _). unfold style_ok. rewrite E2, E3, E4, E5, E6, E7, E8. tauto. Qed.

Lemma read_sq_ok : forall t d t' r, bytes d -> quant_range t -> read_sq t d = Some (t', r) -> quant_range t' /\ same_sp t t'.
Proof.
  intros t d t' r B (Q0 & Q1 & Q2 & Q3 & Q4) H. unfold read_sq in H. next H. destruct (rd_inv _ _ _ _ B E) as (V & B1 & _). rewrite bytes1 in V.
  cbv zeta in H. set (sty := Z.land z 31) in *.
  match type of H with match ?X with Some _ => _ | None => None end = _ => destruct X as [[[e m] dd] |] eqn:R; [| discriminate] end.
  apply read_steps_ok in R; [| destruct (sty =? 0); tauto | exact B1 | exact Q4].
  assert (Et : t' = mkT (csty t) (numres t) (cblkw t) (cblkh t) (cblksty t) (qmfbid t) (prcw t) (prch t) sty (Z.shiftr z 5)
                  (if sty =? 1 then derive_e e else e) (if sty =? 1 then derive_m m else m) (roishift t) (dcshift t)) by congruence.
  clear H. subst t'. split; [| unfold same_sp; cbn; tauto]. unfold quant_range. cbn [csty qntsty numgbits roishift expn mant].
  pose proof (byte_land z 5 ltac:(lia) ltac:(lia)) as L. change (Z.ones 5) with 31 in L. change (2 ^ 5) with 32 in L. fold sty in L.
  split; [lia |]. split; [lia |]. split; [rewrite Z.shiftr_div_pow2 by lia; change (2 ^ 5) with 32; lia |]. split; [lia |].
  destruct (sty =? 1); [apply derived_range; exact R | exact R].
Qed.

(** ** Lists of components *)
Lemma at_in : forall l c, 0 <= c < Z.of_nat (List.length l) -> In (at_ l c) l.
Proof. intros l c Hc. unfold at_. apply nth_In. lia. Qed.

Lemma put_map : forall (B : Type) (f : tccp -> B) l i t, 0 <= i < Z.of_nat (List.length l) -> f t = f (at_ l i) -> map f (put l i t) = map f l.
Proof.
  intros B f l i t Hi E. unfold put. rewrite <- (firstn_skipn (Z.to_nat i) l) at 3. rewrite !map_app. f_equal.
  destruct (skipn (Z.to_nat i) l) as [| a r] eqn:S; [reflexivity |]. cbn [map]. f_equal. rewrite E. f_equal.
  unfold at_. rewrite <- (firstn_skipn (Z.to_nat i) l) at 1. rewrite S, app_nth2 by (rewrite firstn_length; lia).
  rewrite firstn_length. replace (Z.to_nat i - Nat.min (Z.to_nat i) (List.length l))%nat with O by lia. reflexivity.
Qed.

Lemma put_forall : forall (P : tccp -> Prop) l i t, Forall P l -> P t -> Forall P (put l i t).
Proof.
  intros P l i t F H. unfold put. rewrite <- (firstn_skipn (Z.to_nat i) l) in F. apply Forall_app in F. destruct F as [F1 F2].
  apply Forall_app. split; [exact F1 |]. destruct (skipn (Z.to_nat i) l); [constructor |]. inversion F2; subst. constructor; assumption.
Qed.

Lemma room_range : forall n d c r, bytes d -> rd (room_of n) d = Some (c, r) -> 0 <= c <= 65535 /\ bytes r.
Proof.
  intros n d c r B H. destruct (rd_inv _ _ _ _ B H) as (V & B1 & _). split; [| exact B1].
  unfold room_of in V. destruct (n <=? 256); cbn in V; lia.
Qed.

Lemma comps_count : forall reduce s cod t, tcp_range reduce s cod t -> Z.of_nat (List.length (t_comps t)) = numcomps s.
Proof.
  intros reduce s cod t (_ & D & _). apply (f_equal (@List.length Z)) in D. rewrite !map_length in D. unfold numcomps. lia.
Qed.

(** ** The handlers *)
Lemma cod_sp_quant : forall a b, csty b = csty a -> qntsty b = qntsty a -> numgbits b = numgbits a -> expn b = expn a -> mant b = mant a ->
  roishift b = roishift a -> quant_range a -> quant_range b.
Proof. intros a b E1 E2 E3 E4 E5 E6. unfold quant_range. rewrite E1, E2, E3, E4, E5, E6. tauto. Qed.

Lemma quant_set_csty : forall v t, 0 <= v <= 255 -> quant_range t -> quant_range (set_csty v t).
Proof. intros v t Hv (Q0 & Q). unfold quant_range. cbn [set_csty csty qntsty numgbits roishift expn mant]. tauto. Qed.

Lemma style_copy_sp : forall reduce c t, style_ok reduce c -> style_ok reduce (copy_sp c t).
Proof.
  intros reduce c t S. unfold style_ok, copy_sp, copy_n in *. cbn [numres cblkw cblkh cblksty qmfbid prcw prch].
  destruct S as (S1 & S2 & S3 & S4 & S5 & S6 & S7 & S8). repeat (split; [assumption |]). intros r Hr.
  destruct (Z.leb_spec 0 r); [| lia]. destruct (Z.ltb_spec r (numres c)); [| lia]. cbn [andb]. apply S8. exact Hr.
Qed.

Lemma land_7 : forall v, 0 <= v < 256 -> negb (Z.land v (2 ^ 32 - 8) =? 0) = false -> v <= 7.
Proof.
  intros v Hv H. apply negb_false_iff, Z.eqb_eq in H. destruct (Z.le_gt_cases v 7) as [| G]; [assumption |]. exfalso.
  pose proof (Z.log2_spec v ltac:(lia)) as L. pose proof (Z.log2_le_mono 8 v ltac:(lia)) as L8. change (Z.log2 8) with 3 in L8.
  assert (L9 : Z.log2 v < 8) by (apply Z.log2_lt_pow2; lia).
  assert (T : Z.testbit (Z.land v (2 ^ 32 - 8)) (Z.log2 v) = true).
  { rewrite Z.land_spec, Z.bit_log2 by lia.
    assert (D : Z.log2 v = 3 \/ Z.log2 v = 4 \/ Z.log2 v = 5 \/ Z.log2 v = 6 \/ Z.log2 v = 7) by lia.
    destruct D as [-> | [-> | [-> | [-> | ->]]]]; reflexivity. }
  rewrite H, Z.bits_0 in T. discriminate.
Qed.

Lemma dc_copy_sp : forall c l, map dcshift (map (copy_sp c) l) = map dcshift l.
Proof. intros. rewrite map_map. reflexivity. Qed.
Lemma dc_copy_sq : forall c l, map dcshift (map (copy_sq c) l) = map dcshift l.
Proof. intros. rewrite map_map. reflexivity. Qed.

Lemma cod_good : forall reduce s cod t d t', bytes d -> 1 <= numcomps s -> tcp_range reduce s cod t -> read_cod reduce t d = Some t' ->
  tcp_range reduce s true t'.
Proof.
  intros reduce s cod t d t' B Hn R H. pose proof (comps_count _ _ _ _ R) as L. destruct R as (R1 & R2 & R3 & R4 & R5 & R6).
  unfold read_cod in H. cbv zeta in H. next H. next H. next H. next H. next H. next H. next H. next H.
  repeat match goal with B : bytes ?d, E : rd _ ?d = Some (_, _) |- _ =>
    let V := fresh "V" in let B' := fresh "B" in destruct (rd_inv _ _ _ _ B E) as (V & B' & _); clear E end.
  rewrite ?bytes1, ?bytes2 in *. apply land_7 in E1; [| lia].
  destruct (t_comps t) as [| c0 cr] eqn:Ec; [cbn in L; lia |]. cbn [map tl] in H. change (at_ (set_csty (Z.land z 1) c0 :: map (set_csty (Z.land z 1)) cr) 0) with (set_csty (Z.land z 1) c0) in H.
  destruct (read_sp reduce (set_csty (Z.land z 1) c0) l2) as [[c [| ? ?]] |] eqn:Sp; [| discriminate | discriminate].
  apply read_sp_ok in Sp; [| assumption]. destruct Sp as (P1 & P2 & P3 & P4 & P5 & P6 & P7 & P8).
  assert (Et : t' = mkTcp z (if 4 <? z0 then -1 else z0) z1 z2 (c :: map (copy_sp c) (map (set_csty (Z.land z 1)) cr)) (t_pocs t)) by congruence.
  clear H. subst t'. unfold tcp_range, cod_range. cbn [t_layers t_comps t_pocs t_csty t_prg t_mct].
  pose proof (byte_land z 1 ltac:(lia) ltac:(lia)) as Lz. change (Z.ones 1) with 1 in Lz. change (2 ^ 1) with 2 in Lz.
  inversion R3 as [| ? ? Q0 Qr]; subst.
  split; [lia |]. split.
  { rewrite <- R2. cbn [map]. f_equal; [rewrite P8; reflexivity |]. rewrite dc_copy_sp, map_map. reflexivity. }
  split.
  { constructor.
    - eapply cod_sp_quant; [exact P2 | exact P3 | exact P4 | exact P5 | exact P6 | exact P7 |]. apply quant_set_csty; [lia | exact Q0].
    - apply Forall_map, Forall_map. eapply Forall_impl; [| exact Qr]. intros a Qa.
      eapply (cod_sp_quant (set_csty (Z.land z 1) a)); try reflexivity. apply quant_set_csty; [lia | exact Qa]. }
  split; [exact R4 |]. split; [exact R5 |]. intros _. split; [destruct (4 <? z0) eqn:E9; lia |].
  constructor; [exact P1 |]. apply Forall_map, Forall_map. rewrite Forall_forall. intros a _. apply style_copy_sp. exact P1.
Qed.

Lemma put_good : forall reduce s cod t c q, 0 <= c < numcomps s -> tcp_range reduce s cod t -> dcshift q = dcshift (at_ (t_comps t) c) -> quant_range q ->
  (style_ok reduce (at_ (t_comps t) c) -> style_ok reduce q) -> tcp_range reduce s cod (set_comps t (put (t_comps t) c q)).
Proof.
  intros reduce s cod t c q Hc R Hd Hq Hs. pose proof (comps_count _ _ _ _ R) as L. destruct R as (R1 & R2 & R3 & R4 & R5 & R6).
  unfold tcp_range, set_comps. cbn [t_layers t_comps t_pocs]. split; [exact R1 |].
  split; [rewrite put_map by (try lia; exact Hd); exact R2 |]. split; [apply put_forall; assumption |]. split; [exact R4 |]. split; [exact R5 |].
  intros Hc1. destruct (R6 Hc1) as [C S]. split; [exact C |]. apply put_forall; [exact S |]. apply Hs.
  rewrite Forall_forall in S. apply S, at_in. lia.
Qed.

Lemma at_quant : forall reduce s cod t c, tcp_range reduce s cod t -> 0 <= c < numcomps s -> quant_range (at_ (t_comps t) c).
Proof.
  intros reduce s cod t c R Hc. pose proof (comps_count _ _ _ _ R) as L. destruct R as (_ & _ & R3 & _). rewrite Forall_forall in R3.
  apply R3, at_in. lia.
Qed.

Lemma coc_good : forall reduce s cod t d t', bytes d -> tcp_range reduce s cod t -> read_coc reduce (numcomps s) t d = Some t' ->
  tcp_range reduce s cod t'.
Proof.
  intros reduce s cod t d t' B R H. unfold read_coc in H. next H. next H. next H. next H.
  destruct (room_range _ _ _ _ B E0) as [V B1]. destruct (rd_inv _ _ _ _ B1 E2) as (V2 & B2 & _). rewrite bytes1 in V2. apply Z.leb_gt in E1.
  match type of H with match ?X with Some _ => _ | None => None end = _ => destruct X as [[q [| ? ?]] |] eqn:Sp; [| discriminate | discriminate] end.
  apply read_sp_ok in Sp; [| assumption]. destruct Sp as (P1 & P2 & P3 & P4 & P5 & P6 & P7 & P8).
  assert (Et : t' = set_comps t (put (t_comps t) z q)) by (unfold set_comps; congruence). clear H. subst t'.
  pose proof (at_quant _ _ _ _ z R ltac:(lia)) as Q. apply put_good; [lia | exact R | exact P8 | | intros _; exact P1].
  eapply cod_sp_quant; [exact P2 | exact P3 | exact P4 | exact P5 | exact P6 | exact P7 |]. apply quant_set_csty; [lia | exact Q].
Qed.

Lemma rgn_good : forall reduce s cod t d t', bytes d -> tcp_range reduce s cod t -> read_rgn (numcomps s) t d = Some t' ->
  tcp_range reduce s cod t'.
Proof.
  intros reduce s cod t d t' B R H. unfold read_rgn in H. next H. next H. next H. next H. next H.
  destruct (room_range _ _ _ _ B E0) as [V B1]. destruct (rd_inv _ _ _ _ B1 E1) as (V2 & B2 & _). destruct (rd_inv _ _ _ _ B2 E3) as (V3 & _).
  rewrite bytes1 in *. apply Z.leb_gt in E2. assert (Et : t' = set_comps t (put (t_comps t) z (set_roi z1 (at_ (t_comps t) z)))) by congruence.
  clear H. subst t'. pose proof (at_quant _ _ _ _ z R ltac:(lia)) as (Q0 & Q1 & Q2 & Q3 & Q4).
  apply put_good; [lia | exact R | reflexivity | | intros S; exact S].
  unfold quant_range. cbn [set_roi csty qntsty numgbits roishift expn mant]. split; [lia |]. split; [lia |]. split; [lia |]. split; [lia |]. exact Q4.
Qed.

Lemma qcc_good : forall reduce s cod t d t', bytes d -> tcp_range reduce s cod t -> read_qcc (numcomps s) t d = Some t' ->
  tcp_range reduce s cod t'.
Proof.
  intros reduce s cod t d t' B R H. unfold read_qcc in H. next H. next H.
  destruct (room_range _ _ _ _ B E) as [V B1]. apply Z.leb_gt in E0.
  match type of H with match ?X with Some _ => _ | None => None end = _ => destruct X as [[q [| ? ?]] |] eqn:Sq; [| discriminate | discriminate] end.
  pose proof (at_quant _ _ _ _ z R ltac:(lia)) as Q. apply read_sq_ok in Sq; [| assumption | exact Q]. destruct Sq as [Q1 Q2].
  assert (Et : t' = set_comps t (put (t_comps t) z q)) by congruence. clear H. subst t'.
  apply put_good; [lia | exact R | apply Q2 | exact Q1 | intros S; eapply style_same_sp; [exact Q2 | exact S]].
Qed.

Lemma qcd_good : forall reduce s cod t d t', bytes d -> 1 <= numcomps s -> tcp_range reduce s cod t -> read_qcd t d = Some t' ->
  tcp_range reduce s cod t'.
Proof.
  intros reduce s cod t d t' B Hn R H. pose proof (comps_count _ _ _ _ R) as L. destruct R as (R1 & R2 & R3 & R4 & R5 & R6).
  unfold read_qcd in H. destruct (t_comps t) as [| c0 cr] eqn:Ec; [cbn in L; lia |]. cbn [tl] in H. change (at_ (c0 :: cr) 0) with c0 in H.
  inversion R3 as [| ? ? Q0 Qr]; subst.
  destruct (read_sq c0 d) as [[c [| ? ?]] |] eqn:Sq; [| discriminate | discriminate].
  apply read_sq_ok in Sq; [| assumption | exact Q0]. destruct Sq as [Q1 Q2].
  assert (Et : t' = set_comps t (c :: map (copy_sq c) cr)) by congruence. clear H. subst t'.
  unfold tcp_range, set_comps, cod_range in *. cbn [t_layers t_comps t_pocs t_csty t_prg t_mct].
  split; [exact R1 |]. split; [rewrite <- R2; cbn [map]; f_equal; [apply Q2 | apply dc_copy_sq] |]. split.
  { constructor; [exact Q1 |]. apply Forall_map. eapply Forall_impl; [| exact Qr]. intros a (A0 & A1 & A2 & A3 & A4).
    destruct Q1 as (B0 & B1 & B2 & B3 & B4). unfold quant_range, copy_sq, copy_n. cbn [csty qntsty numgbits roishift expn mant].
    repeat (split; [assumption |]). intros b Hb. destruct (Z.leb_spec 0 b); [| lia]. destruct (Z.ltb_spec b 97); [| lia]. cbn [andb]. apply B4. exact Hb. }
  split; [exact R4 |]. split; [exact R5 |]. intros Hc. destruct (R6 Hc) as [C S]. split; [exact C |].
  inversion S as [| ? ? S0 Sr]; subst. constructor; [eapply style_same_sp; [exact Q2 | exact S0] |]. apply Forall_map.
  eapply Forall_impl; [| exact Sr]. intros a Sa. exact Sa.
Qed.

Lemma read_pocs_ok : forall k n layers d l, bytes d -> 0 <= n -> 0 <= layers <= 65535 -> read_pocs k n layers d = Some l ->
  Forall (poc_range n) l /\ List.length l = k.
Proof.
  induction k as [| k IH]; intros n layers d l B Hn Hl H; cbn [read_pocs] in H.
  - assert (l = []) by congruence. subst. split; [constructor | reflexivity].
  - next H. next H. next H. next H. next H. next H.
    destruct (rd_inv _ _ _ _ B E) as (V1 & B1 & _). destruct (room_range _ _ _ _ B1 E0) as [V2 B2]. destruct (rd_inv _ _ _ _ B2 E1) as (V3 & B3 & _).
    destruct (rd_inv _ _ _ _ B3 E2) as (V4 & B4 & _). destruct (room_range _ _ _ _ B4 E3) as [V5 B5]. destruct (rd_inv _ _ _ _ B5 E4) as (V6 & B6 & _).
    rewrite ?bytes1, ?bytes2 in *. destruct (read_pocs k n layers l5) as [l' |] eqn:R; [| discriminate].
    destruct (IH _ _ _ _ B6 Hn Hl R) as [F Lk]. assert (El : l = mkPoc z z0 (Z.min z1 layers) z2 (Z.min z3 n) z4 :: l') by congruence. clear H. subst l.
    split; [| cbn; lia]. constructor; [| exact F]. unfold poc_range. cbn [p_res0 p_comp0 p_lay1 p_res1 p_comp1 p_prg]. lia.
Qed.

Lemma poc_good : forall reduce s cod t d t', bytes d -> 0 <= numcomps s -> tcp_range reduce s cod t -> read_poc (numcomps s) t d = Some t' ->
  tcp_range reduce s cod t'.
Proof.
  intros reduce s cod t d t' B Hn (R1 & R2 & R3 & R4 & R5 & R6) H. unfold read_poc in H. cbv zeta in H. next H. next H.
  match type of H with match ?X with Some _ => _ | None => None end = _ => destruct X as [l |] eqn:P; [| discriminate] end.
  apply read_pocs_ok in P; [| assumption | exact Hn | exact R1]. destruct P as [F Lk]. apply Z.leb_gt in E0.
  assert (Et : t' = mkTcp (t_csty t) (t_prg t) (t_layers t) (t_mct t) (t_comps t) (t_pocs t ++ l)) by congruence. clear H. subst t'.
  unfold tcp_range, cod_range in *. cbn [t_layers t_comps t_pocs t_csty t_prg t_mct]. split; [exact R1 |]. split; [exact R2 |]. split; [exact R3 |].
  split; [rewrite app_length, Lk; lia |]. split; [apply Forall_app; split; assumption |]. exact R6.
Qed.

Section Header.
Variable other : Z -> hdr -> list Z -> option hdr.
Variable ihdr : Z * Z.
Variable reduce : Z.
Hypothesis Hother : forall m h d h', bytes d -> good ihdr reduce h -> other m h d = Some h' -> good ihdr reduce h'.

Lemma fresh_range : forall c, quant_range (fresh c).
Proof. intros c. unfold quant_range, fresh. cbn [csty qntsty numgbits roishift expn mant]. unfold zero. do 4 (split; [lia |]). intros. lia. Qed.

Lemma fresh_shift : forall c, comp_ok c -> dcshift (fresh c) = shift_of c.
Proof.
  intros c (Hp & _). unfold fresh, shift_of. cbn [dcshift]. destruct (c_sgnd c =? 0); [| reflexivity].
  rewrite u32_id, Z.mod_small by lia. rewrite Z.shiftl_mul_pow2, Z.mul_1_l by lia. apply i32_id.
  assert (1 <= 2 ^ (c_prec c - 1) <= 2 ^ 30) by (split; [apply (Z.pow_le_mono_r 2 0) | apply Z.pow_le_mono_r]; lia). unfold in_i32. lia.
Qed.

Lemma handler_good : forall m h d h', bytes d -> good ihdr reduce h -> allowed h m = true -> handler other ihdr reduce m h d = Some h' ->
  good ihdr reduce h'.
Proof.
  intros m h d h' B G A H. unfold handler in H. cbv zeta in H. destruct (h_siz h) as [s |] eqn:Es.
  - assert (G0 := G). unfold good in G. rewrite Es in G. destruct G as (G1 & G2 & G3).
    assert (Hn : 1 <= numcomps s <= 16384) by apply G1.
    unfold allowed in A. rewrite Es in A. destruct (Z.eqb_spec m SIZ) as [-> | _]; [discriminate |].
    assert (K : forall t cod qcd, tcp_range reduce s cod t -> good ihdr reduce (mkHdr (Some s) t cod qcd)).
    { intros t cod qcd T. unfold good. cbn [h_siz h_cod h_tcp]. tauto. }
    assert (K' : forall o h'', set_tcp h o = Some h'' -> (forall t, o = Some t -> tcp_range reduce s (h_cod h) t) -> good ihdr reduce h'').
    { intros o h'' S T. unfold set_tcp in S. destruct o as [t |]; [| discriminate]. assert (E : h'' = mkHdr (h_siz h) t (h_cod h) (h_qcd h)) by congruence.
      subst h''. rewrite Es. apply K, T. reflexivity. }
    destruct (m =? COD).
    { destruct (read_cod reduce (h_tcp h) d) as [t |] eqn:R; [| discriminate]. assert (E : h' = mkHdr (h_siz h) t true (h_qcd h)) by congruence. subst h'.
      rewrite Es. apply K. eapply cod_good; [exact B | lia | exact G3 | exact R]. }
    destruct (m =? COC); [eapply K'; [exact H |]; intros t R; eapply coc_good; [exact B | exact G3 | exact R] |].
    destruct (m =? RGN); [eapply K'; [exact H |]; intros t R; eapply rgn_good; [exact B | exact G3 | exact R] |].
    destruct (m =? QCD).
    { destruct (read_qcd (h_tcp h) d) as [t |] eqn:R; [| discriminate]. assert (E : h' = mkHdr (h_siz h) t (h_cod h) true) by congruence. subst h'.
      rewrite Es. apply K. eapply qcd_good; [exact B | lia | exact G3 | exact R]. }
    destruct (m =? QCC); [eapply K'; [exact H |]; intros t R; eapply qcc_good; [exact B | exact G3 | exact R] |].
    destruct (m =? POC); [eapply K'; [exact H |]; intros t R; eapply poc_good; [exact B | lia | exact G3 | exact R] |].
    destruct (m =? TLM); [destruct (read_tlm d); [apply some_inj in H; subst h'; exact G0 | discriminate] |].
    destruct (m =? PLM); [destruct (1 <=? List.length d)%nat; [apply some_inj in H; subst h'; exact G0 | discriminate] |].
    destruct (m =? CRG); [destruct (_ =? _) in H; [apply some_inj in H; subst h'; exact G0 | discriminate] |].
    destruct (m =? COM); [apply some_inj in H; subst h'; exact G0 |].
    destruct (existsb _ _); [| discriminate]. eapply Hother; [exact B | exact G0 | exact H].
  - unfold allowed in A. rewrite Es in A. rewrite A in H. destruct (read_siz ihdr d) as [s |] eqn:R; [| discriminate].
    destruct (read_siz_ok _ _ _ B R) as [S1 S2]. assert (E : h' = mkHdr (Some s) (tcp_of s) (h_cod h) (h_qcd h)) by congruence. clear H.
    unfold good in G. rewrite Es in G. subst h h'. unfold good. cbn [h_siz h_cod h_tcp hdr0]. split; [exact S1 |]. split; [exact S2 |].
    unfold tcp_range, tcp_of. cbn [t_layers t_comps t_pocs]. split; [lia |]. split.
    { rewrite map_map. apply map_ext_in. intros c Hc. apply fresh_shift. destruct S1 as (_ & _ & _ & _ & F & _). rewrite Forall_forall in F. apply F, Hc. }
    split; [apply Forall_map, Forall_forall; intros c _; apply fresh_range |]. split; [cbn; lia |]. split; [constructor | discriminate].
Qed.

Lemma unk_bytes : forall k h d m d', (List.length d <= k)%nat -> bytes d -> read_unk h d = Some (m, d') -> bytes d'.
Proof.
  induction k as [| k IH]; intros h d m d' Hk B H; (destruct d as [| a [| b d]]; [discriminate | discriminate |]); [cbn in Hk; lia |].
  cbn [List.length] in Hk. inversion B as [| ? ? Ba B1]; subst. inversion B1 as [| ? ? Bb B2]; subst. cbn [read_unk] in H.
  destruct (from_be [a; b] <? 65280); [apply IH in H; [exact H | lia | exact B2] |].
  destruct (negb _); [discriminate |]. destruct (known _); [| apply IH in H; [exact H | lia | exact B2]].
  assert (d' = d) by congruence. subst. exact B2.
Qed.

Lemma bytes_take : forall k d, bytes d -> bytes (firstn k d) /\ bytes (skipn k d).
Proof. intros k d B. unfold bytes in *. rewrite <- (firstn_skipn k d) in B. apply Forall_app in B. exact B. Qed.

Lemma segments_good : forall fuel m h d h' r, bytes d -> good ihdr reduce h -> read_segments other ihdr reduce fuel m h d = Some (h', r) ->
  good ihdr reduce h' /\ bytes r.
Proof.
  induction fuel as [| fuel IH]; intros m h d h' r B G H; cbn [read_segments] in H; [discriminate |].
  destruct (m =? SOT); [assert (h' = h /\ r = d) as [-> ->] by (split; congruence); tauto |]. next H.
  match type of H with match ?X with Some _ => _ | None => None end = _ => destruct X as [[m2 d2] |] eqn:U; [| discriminate] end.
  assert (B2 : bytes d2).
  { destruct (known m); [assert (d2 = d) by congruence; subst; exact B |]. eapply unk_bytes; [apply Nat.le_refl | exact B | exact U]. }
  destruct (m2 =? SOT); [assert (h' = h /\ r = d2) as [-> ->] by (split; congruence); tauto |]. next H. apply negb_false_iff in E0.
  next H. destruct (rd_inv _ _ _ _ B2 E1) as (V & B3 & _). next H. cbv zeta in H. next H. destruct (bytes_take (Z.to_nat (z - 2)) l B3) as [B4 B5].
  match type of H with match ?X with Some _ => _ | None => None end = _ => destruct X as [h2 |] eqn:Hd; [| discriminate] end.
  apply handler_good in Hd; [| exact B4 | exact G | exact E0]. next H. destruct (rd_inv _ _ _ _ B5 E4) as (_ & B6 & _).
  eapply IH; [exact B6 | exact Hd | exact H].
Qed.

Lemma header_good : forall d s t r, bytes d -> read_header other ihdr reduce d = Some (s, t, r) ->
  siz_ok s /\ fits ihdr s /\ tcp_range reduce s true t /\ bytes r.
Proof.
  intros d s t r B H. unfold read_header in H. next H. destruct (rd_inv _ _ _ _ B E) as (_ & B1 & _). next H. next H.
  destruct (rd_inv _ _ _ _ B1 E1) as (_ & B2 & _).
  match type of H with match ?X with Some _ => _ | None => None end = _ => destruct X as [[h d'] |] eqn:R; [| discriminate] end.
  apply segments_good in R; [| exact B2 | reflexivity]. destruct R as [G B3]. unfold good in G. destruct (h_siz h) as [s' |]; [| discriminate].
  destruct (h_cod h) eqn:Ec; [| discriminate]. cbn [andb] in H. destruct (h_qcd h); [| discriminate].
  assert (s = s' /\ t = h_tcp h /\ r = d') as (-> & -> & ->) by (repeat split; congruence). tauto.
Qed.
End Header.
