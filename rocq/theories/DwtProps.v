(** C24, C25: the reversible 5/3 wavelet transform is lossless. *)

From Coq Require Import ZArith List Bool Lia.
From Verif Require Import I32 Mem DwtModel DwtSpec DwtProofs DwtLines DwtForward DwtColumns DwtTile.
Import ListNotations.
Local Open Scope Z_scope.
Ltac Zify.zify_post_hook ::= Z.div_mod_to_equations.

(** ** C24: one line *)

(** A row of [n] samples at [b], transformed and transformed back, is restored,
    and no other cell is touched; [n] = 0 is excluded, see
    [c25_empty_level_refuted]. *)
Theorem c24_row : forall n cas b m tmp buf, 1 <= n -> cas = 0 \/ cas = 1 ->
  (forall k, 0 <= k < n -> small (m (b + k))) ->
  let m' := fst (fdwt_h b n (cas =? 0) (m, tmp)) in
  let m'' := fst (idwt_h (nlow cas n) (nhigh cas n) cas b (m', buf)) in
  forall x, m'' x = m x.
Proof.
  intros n cas b m tmp buf Hn Hc Hs m' m'' x. subst m' m''.
  assert (E : cas_of (cas =? 0) = cas) by (destruct Hc as [-> | ->]; reflexivity).
  pose proof (fdwt_h_spec b n (cas =? 0) m tmp Hn) as [F1 F2]. rewrite E in F1.
  set (m' := fst (fdwt_h _ _ _ _)) in *.
  destruct (idwt_h_spec cas n b m' buf Hc ltac:(lia)) as [I1 I2].
  destruct (Z_lt_le_dec x b) as [L | L]; [rewrite I2, F2 by lia; reflexivity |].
  destruct (Z_lt_le_dec x (b + n)) as [L' | L']; [| rewrite I2, F2 by lia; reflexivity].
  replace x with (b + (x - b)) by lia. rewrite I1 by lia.
  rewrite (iline_ext cas n _ (fline cas n (fun k => m (b + k)))) by (lia || assumption || (intros; apply F1; lia)).
  apply (line_inv cas n (fun k => m (b + k))); [exact Hc | exact Hn | exact Hs | lia].
Qed.

(** The same for up to eight columns of [n] samples starting at [a] in a region
    of row length [w]. *)
Theorem c24_columns : forall n cas a cols w m tmp buf, 1 <= n -> cas = 0 \/ cas = 1 ->
  0 <= a -> 0 <= cols <= 8 -> a + cols <= w -> n * w <= 2 ^ 32 ->
  (forall k c, 0 <= k < n -> 0 <= c < cols -> small (m (k * w + (a + c)))) ->
  let m' := fst (fdwt_v a n (cas =? 0) w cols (m, tmp)) in
  let m'' := fst (idwt_v (nlow cas n) (nhigh cas n) cas a w cols (m', buf)) in
  same w m'' m.
Proof.
  intros n cas a cols w m tmp buf Hn Hc Ha Hcols Hw Hsz Hs m' m'' p c Hcc. subst m' m''.
  assert (E : cas_of (cas =? 0) = cas) by (destruct Hc as [-> | ->]; reflexivity).
  pose proof (fdwt_v_spec a n (cas =? 0) w cols m tmp Hn Ha Hcols Hw Hsz) as [F1 F2]. rewrite E in F1.
  set (m' := fst (fdwt_v _ _ _ _ _ _)) in *.
  destruct (idwt_v_spec cas n a w cols m' buf Hc ltac:(lia) Ha ltac:(lia) Hw) as [I1 I2].
  destruct (Z_lt_le_dec p 0) as [P0 | P0]; [rewrite I2, F2 by lia; reflexivity |].
  destruct (Z_lt_le_dec p n) as [P1 | P1]; [| rewrite I2, F2 by lia; reflexivity].
  destruct (Z_lt_le_dec c a) as [L | L]; [rewrite I2, F2 by lia; reflexivity |].
  destruct (Z_lt_le_dec c (a + cols)) as [L' | L']; [| rewrite I2, F2 by lia; reflexivity].
  replace c with (a + (c - a)) by lia. rewrite I1 by lia.
  rewrite (iline_ext cas n _ (fline cas n (fun k => m (k * w + (a + (c - a)))))) by (lia || assumption || (intros; apply F1; lia)).
  apply (line_inv cas n (fun k => m (k * w + (a + (c - a))))); [exact Hc | exact Hn | intros; apply Hs; lia | lia].
Qed.

(** The coefficients are those of the standard (Annex F.4.8.1): lifting on the
    symmetrically extended signal, with exact integers. *)
Definition reflect (n i : Z) : Z := if i <? 0 then - i else if n <=? i then 2 * (n - 1) - i else i.
Definition std_high (n : Z) (x : Z -> Z) (p : Z) : Z := x p - (x (reflect n (p - 1)) + x (reflect n (p + 1))) / 2.
Definition std_low (n : Z) (x : Z -> Z) (p : Z) : Z :=
  x p + (std_high n x (reflect n (p - 1)) + std_high n x (reflect n (p + 1)) + 2) / 4.

Lemma half_exact : forall M a b, 0 <= M -> 4 * M < 2 ^ 31 -> - M <= a <= M -> - M <= b <= M ->
  half a b = (a + b) / 2 /\ - M <= half a b <= M.
Proof.
  intros M a b H0 HM Ha Hb. unfold half, sar. rewrite i32_id by (unfold in_i32; lia).
  rewrite Z.shiftr_div_pow2 by lia. change (2 ^ 1) with 2. lia.
Qed.

Lemma quarter_exact : forall M a b, 0 <= M -> 4 * M < 2 ^ 31 - 2 -> - 2 * M <= a <= 2 * M -> - 2 * M <= b <= 2 * M ->
  quarter a b = (a + b + 2) / 4 /\ - M <= quarter a b <= M.
Proof.
  intros M a b H0 HM Ha Hb. unfold quarter, sar. rewrite (i32_id (a + b)) by (unfold in_i32; lia).
  rewrite i32_id by (unfold in_i32; lia).
  rewrite Z.shiftr_div_pow2 by lia. change (2 ^ 2) with 4. lia.
Qed.

Section Bounds.
  Variables (cas n M : Z) (x : Z -> Z).
  Hypothesis (Hc : cas = 0 \/ cas = 1) (Hn : 2 <= n) (HM : 0 <= M) (HM' : 4 * M < 2 ^ 31 - 2).
  Hypothesis (Hx : forall p, 0 <= p < n -> - M <= x p <= M).

  Lemma fhigh_exact : forall i, 0 <= i < nhigh cas n ->
    fhigh cas n x i = std_high n x (highp cas i) /\ - 2 * M <= fhigh cas n x i <= 2 * M.
  Proof.
    intros i Hi. unfold fhigh, std_high. unfold nhigh, nlow in Hi.
    set (a := clamp (nlow cas n) (i - cas)). set (b := clamp (nlow cas n) (i - cas + 1)).
    assert (Ea : lowp cas a = reflect n (highp cas i - 1)).
    { unfold lowp, a, clamp, nlow, reflect, highp.
      destruct (Z.ltb_spec (2 * i + 1 - cas - 1) 0), (Z.leb_spec n (2 * i + 1 - cas - 1)); lia. }
    assert (Eb : lowp cas b = reflect n (highp cas i + 1)).
    { unfold lowp, b, clamp, nlow, reflect, highp.
      destruct (Z.ltb_spec (2 * i + 1 - cas + 1) 0), (Z.leb_spec n (2 * i + 1 - cas + 1)); lia. }
    rewrite <- Ea, <- Eb.
    assert (Ra : - M <= x (lowp cas a) <= M) by (apply Hx; unfold lowp, a, clamp, nlow; lia).
    assert (Rb : - M <= x (lowp cas b) <= M) by (apply Hx; unfold lowp, b, clamp, nlow; lia).
    assert (Rp : - M <= x (highp cas i) <= M) by (apply Hx; unfold highp; lia).
    destruct (half_exact M _ _ HM ltac:(lia) Ra Rb) as [H1 H2].
    destruct (Z.eqb_spec a b) as [E | E].
    - rewrite <- E in *. rewrite i32_id by (unfold in_i32; lia). lia.
    - rewrite H1 in *. rewrite i32_id by (unfold in_i32; lia). lia.
  Qed.

  Lemma flow_exact : forall i, 0 <= i < nlow cas n ->
    flow cas n x i = std_low n x (lowp cas i) /\ - 2 * M <= flow cas n x i <= 2 * M.
  Proof.
    intros i Hi. unfold flow, std_low. unfold nlow in Hi.
    set (a := clamp (nhigh cas n) (i - 1 + cas)). set (b := clamp (nhigh cas n) (i + cas)).
    assert (Ea : highp cas a = reflect n (lowp cas i - 1)).
    { unfold lowp, a, clamp, nhigh, nlow, reflect, highp.
      destruct (Z.ltb_spec (2 * i + cas - 1) 0), (Z.leb_spec n (2 * i + cas - 1)); lia. }
    assert (Eb : highp cas b = reflect n (lowp cas i + 1)).
    { unfold lowp, b, clamp, nhigh, nlow, reflect, highp.
      destruct (Z.ltb_spec (2 * i + cas + 1) 0), (Z.leb_spec n (2 * i + cas + 1)); lia. }
    rewrite <- Ea, <- Eb.
    destruct (fhigh_exact a) as [A1 A2]; [unfold a, clamp, nhigh, nlow; lia |].
    destruct (fhigh_exact b) as [B1 B2]; [unfold b, clamp, nhigh, nlow; lia |].
    rewrite <- A1, <- B1.
    assert (Rp : - M <= x (lowp cas i) <= M) by (apply Hx; unfold lowp; lia).
    destruct (quarter_exact M _ _ HM HM' A2 B2) as [Q1 Q2]. rewrite Q1 in *.
    rewrite i32_id by (unfold in_i32; lia). lia.
  Qed.
End Bounds.

Theorem c24_standard : forall n cas b m tmp M, 2 <= n -> cas = 0 \/ cas = 1 -> 0 <= M -> 4 * M < 2 ^ 31 - 2 ->
  (forall k, 0 <= k < n -> - M <= m (b + k) <= M) ->
  let m' := fst (fdwt_h b n (cas =? 0) (m, tmp)) in
  (forall i, 0 <= i < nlow cas n -> m' (b + i) = std_low n (fun k => m (b + k)) (2 * i + cas)) /\
  (forall i, 0 <= i < nhigh cas n -> m' (b + (nlow cas n + i)) = std_high n (fun k => m (b + k)) (2 * i + 1 - cas)).
Proof.
  intros n cas b m tmp M Hn Hc HM HM' Hx m'. subst m'.
  assert (E : cas_of (cas =? 0) = cas) by (destruct Hc as [-> | ->]; reflexivity).
  pose proof (fdwt_h_spec b n (cas =? 0) m tmp ltac:(lia)) as [F1 _]. rewrite E in F1.
  assert (R1 : 0 <= nlow cas n <= n) by (unfold nlow; lia).
  split; intros i Hi.
  - rewrite F1 by lia. unfold fline. replace (n =? 1) with false by (symmetry; apply Z.eqb_neq; lia).
    replace (i <? nlow cas n) with true by (symmetry; apply Z.ltb_lt; lia).
    apply (flow_exact cas n M _ Hc Hn HM HM' Hx), Hi.
  - unfold nhigh in Hi. rewrite F1 by lia. unfold fline. replace (n =? 1) with false by (symmetry; apply Z.eqb_neq; lia).
    replace (nlow cas n + i <? nlow cas n) with false by (symmetry; apply Z.ltb_ge; lia).
    replace (nlow cas n + i - nlow cas n) with i by lia.
    apply (fhigh_exact cas n M _ Hc Hn HM HM' Hx), Hi.
Qed.

Definition of_list (l : list Z) : mem := fun i => nth (Z.to_nat i) l 0.
Definition cells (m : mem) (n : nat) : list Z := map (fun i => m (Z.of_nat i)) (seq 0 n).

Example c24_example :
  let m' := fst (fdwt_h 0 5 false (of_list [10; 20; 35; -4; 7], of_list [])) in
  cells m' 5 = [24; 6; -10; 27; 11] /\
  cells (fst (idwt_h 2 3 1 0 (m', of_list []))) 5 = [10; 20; 35; -4; 7].
Proof. vm_compute. split; reflexivity. Qed.

(** Beyond 2^30 the wrap at a border loses data: [small] cannot be dropped. *)
Theorem c24_large_refuted : exists m x, in_i32 (m 0) /\ in_i32 (m 1) /\
  let m' := fst (fdwt_h 0 2 true (m, of_list [])) in
  fst (idwt_h 1 1 0 0 (m', of_list [])) x <> m x.
Proof. exists (of_list [2 ^ 30; 0]), 1. vm_compute. repeat split; discriminate. Qed.

(** ** C25: tile components *)

Lemma fline_bound : forall cas n M x, cas = 0 \/ cas = 1 -> 0 <= M -> 4 * M < 2 ^ 31 - 2 ->
  (forall p, 0 <= p < n -> - M <= x p <= M) ->
  forall k, 0 <= k < n -> - (2 * M) <= fline cas n x k <= 2 * M.
Proof.
  intros cas n M x Hc HM HM' Hx k Hk. unfold fline. destruct (Z.eqb_spec n 1) as [E | E].
  - pose proof (Hx k Hk). destruct (cas =? 0); [lia |]. rewrite i32_id by (unfold in_i32; lia). lia.
  - destruct (Z.ltb_spec k (nlow cas n)).
    + destruct (flow_exact cas n M x Hc ltac:(lia) HM HM' Hx k ltac:(lia)). lia.
    + destruct (fhigh_exact cas n M x Hc ltac:(lia) HM HM' Hx (k - nlow cas n) ltac:(unfold nhigh; lia)). lia.
Qed.

Definition within (M v : Z) : Prop := - M <= v <= M.

Lemma level_bound : forall w r st M, fits w r -> level_ok r -> 0 <= M -> 8 * M < 2 ^ 31 - 2 ->
  region w (y1 r - y0 r) (x1 r - x0 r) (within M) (fst st) ->
  region w (y1 r - y0 r) (x1 r - x0 r) (within (2 * M)) (fst (encode_vpass w r st)) /\
  region w (y1 r - y0 r) (x1 r - x0 r) (within (4 * M)) (fst (encode_level w r st)).
Proof.
  intros w r st M Hf Hok HM HM' Hr. destruct (encode_vpass_spec w r st Hf) as [V1 _].
  set (s1 := encode_vpass w r st) in *. destruct (encode_hpass_spec w r s1 Hf Hok) as [H1 _].
  assert (A : region w (y1 r - y0 r) (x1 r - x0 r) (within (2 * M)) (fst s1)).
  { intros p c Hp Hc. rewrite V1 by assumption. unfold within.
    apply (fline_bound (y0 r mod 2) (y1 r - y0 r) M); try lia. intros q Hq. apply Hr; assumption. }
  split; [exact A |]. intros p c Hp Hc. unfold encode_level. fold s1. rewrite H1 by assumption. unfold within.
  replace (4 * M) with (2 * (2 * M)) by lia.
  apply (fline_bound (x0 r mod 2) (x1 r - x0 r) (2 * M)); try lia. intros q Hq. apply A; assumption.
Qed.

Lemma region_sub : forall w rh rw rh' rw' (P Q : Z -> Prop) m, rh' <= rh -> rw' <= rw -> (forall v, P v -> Q v) ->
  region w rh rw P m -> region w rh' rw' Q m.
Proof. intros w rh rw rh' rw' P Q m H1 H2 HPQ H p c Hp Hc. apply HPQ, H; lia. Qed.

(** Samples bounded by [M] stay small through [L] levels if 4^L M < 2^30. *)
Lemma calm_of_bound : forall w rs M st, 0 <= M ->
  (forall r, In r rs -> fits w r /\ level_ok r) ->
  (forall i j, (i < j)%nat -> (j < List.length rs)%nat ->
     let a := nth i rs (mkR 0 0 0 0) in let b := nth j rs (mkR 0 0 0 0) in
     y1 b - y0 b <= y1 a - y0 a /\ x1 b - x0 b <= x1 a - x0 a) ->
  match rs with [] => True | r :: _ => region w (y1 r - y0 r) (x1 r - x0 r) (within M) (fst st) end ->
  4 ^ Z.of_nat (List.length rs) * M < 2 ^ 30 -> calm w rs st.
Proof.
  intros w rs. induction rs as [| r rs IH]; intros M st HM Hall Hmono Hr Hb; cbn [calm]; [exact I |].
  replace (Z.of_nat (List.length (r :: rs))) with (1 + Z.of_nat (List.length rs)) in Hb by (cbn [List.length]; lia).
  rewrite Z.pow_add_r in Hb by lia. change (4 ^ 1) with 4 in Hb.
  assert (HP : 1 <= 4 ^ Z.of_nat (List.length rs)) by (apply Z.lt_pred_le, Z.pow_pos_nonneg; lia).
  assert (HM4 : 4 * M < 2 ^ 30) by nia.
  destruct (Hall r (or_introl eq_refl)) as [Hf Hok].
  destruct (level_bound w r st M Hf Hok HM ltac:(lia) Hr) as [B1 B2]. split; [| split].
  - intros p c Hp Hc. specialize (Hr p c Hp Hc). unfold within, small in *. lia.
  - intros p c Hp Hc. specialize (B1 p c Hp Hc). unfold within, small in *. lia.
  - apply (IH (4 * M)).
    + lia.
    + intros r' Hr'. apply Hall. right. exact Hr'.
    + intros i j Hij Hj. apply (Hmono (S i) (S j)); cbn [List.length]; lia.
    + destruct rs as [| r' rs]; [exact I |].
      destruct (Hmono 0%nat 1%nat ltac:(lia) ltac:(cbn [List.length]; lia)) as [M1 M2]. cbn [nth] in M1, M2.
      apply (region_sub w (y1 r - y0 r) (x1 r - x0 r) _ _ (within (4 * M)) _ _ M1 M2); auto.
    + lia.
Qed.

(** Geometry of the resolutions. *)
Lemma ceildivpow2_eq : forall a l, 0 <= l -> ceildivpow2 a l = (a + 2 ^ l - 1) / 2 ^ l.
Proof.
  intros a l Hl. unfold ceildivpow2. rewrite Z.shiftr_div_pow2, Z.shiftl_mul_pow2 by exact Hl. f_equal. lia.
Qed.

Lemma ceil_step : forall a l, 0 <= l -> ceildivpow2 a (l + 1) = (ceildivpow2 a l + 1) / 2.
Proof.
  intros a l Hl. rewrite !ceildivpow2_eq by lia. rewrite Z.pow_add_r by lia. change (2 ^ 1) with 2.
  assert (0 < 2 ^ l) by (apply Z.pow_pos_nonneg; lia). set (q := 2 ^ l) in *.
  replace ((a + q - 1) / q + 1) with ((a + q - 1 + 1 * q) / q) by (rewrite Z.div_add by lia; reflexivity).
  rewrite Zdiv_Zdiv by lia. f_equal. lia.
Qed.

Lemma ceil_nonneg : forall a l, 0 <= l -> 0 <= a -> 0 <= ceildivpow2 a l.
Proof.
  intros a l Hl Ha. rewrite ceildivpow2_eq by exact Hl.
  assert (0 < 2 ^ l) by (apply Z.pow_pos_nonneg; lia). apply Z.div_pos; lia.
Qed.

Lemma ceil_diff : forall a b l, 0 <= l -> a <= b -> 0 <= ceildivpow2 b l - ceildivpow2 a l <= b - a.
Proof.
  intros a b l Hl Hab. rewrite !ceildivpow2_eq by exact Hl.
  assert (0 < 2 ^ l) by (apply Z.pow_pos_nonneg; lia). set (q := 2 ^ l) in *. split.
  - assert ((a + q - 1) / q <= (b + q - 1) / q) by (apply Z.div_le_mono; lia). lia.
  - assert ((b + q - 1) / q <= (a + q - 1 + (b - a) * q) / q) by (apply Z.div_le_mono; nia).
    rewrite Z.div_add in H0 by lia. lia.
Qed.

Lemma resolutions_S : forall t n, resolutions t (S n) = res_rect t (Z.of_nat n) :: resolutions t n.
Proof. intros. unfold resolutions. rewrite seq_S, rev_app_distr. reflexivity. Qed.

Lemma chain_resolutions : forall t n, chain (res_rect t (Z.of_nat n)) (resolutions t n).
Proof.
  intros t. induction n; [exact I |]. rewrite resolutions_S. cbn [chain]. split; [| exact IHn].
  replace (Z.of_nat (S n)) with (Z.of_nat n + 1) by lia. unfold halves, res_rect. cbn [x0 x1 y0 y1].
  rewrite !ceil_step by lia. auto.
Qed.

Lemma in_resolutions : forall t n r, In r (resolutions t n) -> exists l, 0 <= l < Z.of_nat n /\ r = res_rect t l.
Proof.
  intros t n r H. unfold resolutions in H. apply in_map_iff in H. destruct H as (l & <- & H).
  apply in_rev in H. apply in_seq in H. exists (Z.of_nat l). split; [lia | reflexivity].
Qed.

Definition tile_ok (t : rect) : Prop := 0 <= x0 t <= x1 t /\ 0 <= y0 t <= y1 t /\ (x1 t - x0 t) * (y1 t - y0 t) <= 2 ^ 32.

Lemma fits_resolution : forall t l, tile_ok t -> 0 <= l -> fits (x1 t - x0 t) (res_rect t l).
Proof.
  intros t l (Hx & Hy & Hs) Hl. unfold fits, res_rect. cbn [x0 x1 y0 y1].
  pose proof (ceil_diff (x0 t) (x1 t) l Hl ltac:(lia)). pose proof (ceil_diff (y0 t) (y1 t) l Hl ltac:(lia)). nia.
Qed.

Lemma rev_resolutions : forall t n, rev (resolutions t n) = map (fun l => res_rect t (Z.of_nat l)) (seq 0 n).
Proof. intros. unfold resolutions. rewrite map_rev, rev_involutive. reflexivity. Qed.

(** Any tile component of up to 2^32 samples, any number [S L] of resolutions,
    samples up to [M] in magnitude with 4^L M < 2^30: encoding all levels and
    decoding them restores every cell. A level that is empty in width only and
    begins at an odd column is excluded ([level_ok]). *)
Theorem c25_lossless : forall t L M m tmp buf, tile_ok t -> 0 <= M -> 4 ^ Z.of_nat L * M < 2 ^ 30 ->
  (forall l, 0 <= l < Z.of_nat L -> level_ok (res_rect t l)) ->
  (forall p c, 0 <= p < y1 t - y0 t -> 0 <= c < x1 t - x0 t -> - M <= m (p * (x1 t - x0 t) + c) <= M) ->
  let w := x1 t - x0 t in let rs := resolutions t (S L) in
  let m' := fst (dwt_encode w rs (m, tmp)) in
  let m'' := fst (dwt_decode_tile w rs (m', buf)) in
  forall p c, 0 <= c < w -> m'' (p * w + c) = m (p * w + c).
Proof.
  intros t L M m tmp buf Ht HM Hb Hok Hm w rs m' m'' p c Hc. subst m' m'' rs.
  unfold dwt_encode, dwt_decode_tile. rewrite resolutions_S. cbn [tl].
  replace (w =? 0) with false by (symmetry; apply Z.eqb_neq; lia).
  assert (Hall : forall r, In r (resolutions t L) -> fits w r /\ level_ok r /\ 0 <= x0 r /\ 0 <= y0 r).
  { intros r Hr. destruct (in_resolutions _ _ _ Hr) as (l & Hl & ->).
    split; [apply fits_resolution; [exact Ht | lia] |]. split; [apply Hok, Hl |].
    unfold res_rect. cbn [x0 y0]. destruct Ht as (Hx & Hy & _). split; apply ceil_nonneg; lia. }
  apply (levels_inv w (resolutions t L) (res_rect t (Z.of_nat L)) (m, tmp)).
  - apply chain_resolutions.
  - apply Forall_forall, Hall.
  - rewrite rev_resolutions. apply (calm_of_bound w _ M); [exact HM | | | |].
    + intros r Hr. rewrite <- rev_resolutions in Hr. apply in_rev in Hr. destruct (Hall r Hr) as (A & B & _). auto.
    + intros i j Hij Hj. rewrite map_length, seq_length in Hj. cbn zeta.
      rewrite (nth_indep _ _ (res_rect t (Z.of_nat 0))) by (rewrite map_length, seq_length; lia).
      rewrite (nth_indep _ (mkR 0 0 0 0) (res_rect t (Z.of_nat 0))) by (rewrite map_length, seq_length; lia).
      rewrite !(map_nth (fun l => res_rect t (Z.of_nat l))). rewrite !seq_nth by lia. cbn [Nat.add].
      unfold res_rect. cbn [x0 x1 y0 y1]. destruct Ht as (Hx & Hy & _).
      assert (G : forall a b, a <= b -> forall d, ceildivpow2 b (Z.of_nat (i + d)) - ceildivpow2 a (Z.of_nat (i + d)) <=
                   ceildivpow2 b (Z.of_nat i) - ceildivpow2 a (Z.of_nat i)).
      { intros a b Hab. induction d; [rewrite Nat.add_0_r; lia |].
        replace (Z.of_nat (i + S d)) with (Z.of_nat (i + d) + 1) by lia. rewrite !ceil_step by lia.
        pose proof (ceil_diff a b (Z.of_nat (i + d)) ltac:(lia) Hab). lia. }
      replace j with (i + (j - i))%nat by lia. split; apply G; lia.
    + destruct L as [| L]; [exact I |]. cbn [seq map]. intros p0 c0 Hp0 Hc0. unfold within.
      assert (E : forall a, ceildivpow2 a 0 = a).
      { intros a. rewrite ceildivpow2_eq by lia. change (2 ^ 0) with 1. rewrite Z.div_1_r. lia. }
      unfold res_rect in Hp0, Hc0. cbn [x0 x1 y0 y1] in Hp0, Hc0. change (Z.of_nat 0) with 0 in *. rewrite !E in *.
      apply Hm; assumption.
    + rewrite map_length, seq_length. exact Hb.
  - intros q d _. reflexivity.
  - exact Hc.
Qed.

(** In particular no empty level exists if the tile component is at least
    2^(L-1) wide, or if it begins at column 0. *)
Theorem c25_wide_tiles : forall t L, 0 <= x0 t -> 2 ^ (Z.of_nat L - 1) <= x1 t - x0 t \/ (x0 t = 0 /\ x0 t <= x1 t) ->
  forall l, 0 <= l < Z.of_nat L -> level_ok (res_rect t l).
Proof.
  intros t L H0 Hw l Hl. unfold level_ok, res_rect. cbn [x0 x1 y0 y1].
  rewrite !ceildivpow2_eq by lia.
  assert (Hq : 0 < 2 ^ l) by (apply Z.pow_pos_nonneg; lia).
  destruct Hw as [Hw | [Hw _]].
  - left. assert (2 ^ l <= 2 ^ (Z.of_nat L - 1)) by (apply Z.pow_le_mono_r; lia). set (q := 2 ^ l) in *.
    assert ((x0 t + q - 1 + 1 * q) / q <= (x1 t + q - 1) / q) by (apply Z.div_le_mono; lia).
    rewrite Z.div_add in H1 by lia. lia.
  - right. right. rewrite Hw. rewrite Z.div_small by lia. reflexivity.
Qed.

(** A tile component one column wide at column 1, with three resolutions: the
    middle one is empty, but the row pass treats it as having samples and
    overwrites the data. *)
Theorem c25_empty_level_refuted :
  let t := mkR 1 0 2 2 in let rs := resolutions t 3 in
  let m := of_list [10; 20] in
  let m' := fst (dwt_encode 1 rs (m, of_list [])) in
  cells m' 2 = [25; 20] /\ cells (fst (dwt_decode_tile 1 rs (m', of_list []))) 2 <> [10; 20].
Proof. vm_compute. split; [reflexivity | discriminate]. Qed.

Example c25_example :
  let t := mkR 3 1 8 4 in let rs := resolutions t 3 in
  let m := of_list [1; 2; 3; 4; 5; 100; -100; 50; 7; 9; 0; 0; 8; 8; 255] in
  cells (fst (dwt_decode_tile 5 rs (fst (dwt_encode 5 rs (m, of_list [])), of_list []))) 15 = cells m 15 /\
  cells (fst (dwt_encode 5 rs (m, of_list []))) 15 <> cells m 15.
Proof. vm_compute. split; [reflexivity | discriminate]. Qed.

Print Assumptions c24_row.
Print Assumptions c24_columns.
Print Assumptions c24_standard.
Print Assumptions c24_large_refuted.
Print Assumptions c25_lossless.
Print Assumptions c25_wide_tiles.
Print Assumptions c25_empty_level_refuted.
