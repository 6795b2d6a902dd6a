(** C37: level shifting. *)

From Coq Require Import ZArith List Lia Bool.
From Verif Require Import I32 Ints Mem ShiftModel.
Local Open Scope Z_scope.

(** Independent spec: the values a component of [prec] bits may take. *)
Definition lowest (signed : bool) (prec : Z) : Z := if signed then - 2 ^ (prec - 1) else 0.
Definition highest (signed : bool) (prec : Z) : Z := if signed then 2 ^ (prec - 1) - 1 else 2 ^ prec - 1.
Definition sample (signed : bool) (prec x : Z) : Prop := lowest signed prec <= x <= highest signed prec.
Definition saturate (signed : bool) (prec x : Z) : Z := Z.max (lowest signed prec) (Z.min (highest signed prec) x).
Definition flag (signed : bool) : Z := if signed then 1 else 0.

Lemma pow_le31 : forall k, 0 <= k <= 30 -> 1 <= 2 ^ k <= 2 ^ 30.
Proof. intros k H. split; [pose proof (Z.pow_pos_nonneg 2 k ltac:(lia) ltac:(lia)); lia | apply Z.pow_le_mono_r; lia]. Qed.

Lemma shl_ok : forall k, 0 <= k <= 30 -> shl_i32 k = 2 ^ k.
Proof.
  intros k H. unfold shl_i32. rewrite Z.mod_small by lia. rewrite Z.shiftl_1_l. apply i32_id. unfold in_i32.
  pose proof (pow_le31 k H). lia.
Qed.

Lemma shlu_ok : forall k, 0 <= k <= 31 -> shl_u32 k = 2 ^ k.
Proof.
  intros k H. unfold shl_u32. rewrite Z.mod_small by lia. rewrite Z.shiftl_1_l. apply u32_id.
  split; [apply Z.pow_nonneg; lia | apply Z.pow_lt_mono_r; lia].
Qed.

(** The range the decoder computes is the range of the component. *)
Theorem c37_range_ok : forall signed prec, 1 <= prec <= 31 ->
  range_of (flag signed) prec = (lowest signed prec, highest signed prec) /\ lowest signed prec <= highest signed prec.
Proof.
  intros signed prec H. unfold range_of, lowest, highest. pose proof (pow_le31 (prec - 1) ltac:(lia)) as P.
  assert (E : 2 ^ prec = 2 * 2 ^ (prec - 1)) by (replace prec with (Z.succ (prec - 1)) at 1 by lia; apply Z.pow_succ_r; lia).
  destruct signed; cbn [flag Z.eqb negb Pos.eqb].
  - rewrite u32_id by lia. rewrite shl_ok by lia. rewrite !i32_id by (unfold in_i32; lia). split; [reflexivity | lia].
  - rewrite shlu_ok by lia. rewrite u32_id by lia. rewrite i32_id by (unfold in_i32; lia). split; [reflexivity | lia].
Qed.

Lemma clamp_sat : forall signed prec a, 1 <= prec <= 31 ->
  clamp a (lowest signed prec) (highest signed prec) = saturate signed prec a.
Proof.
  intros signed prec a H. destruct (c37_range_ok signed prec H) as [_ L]. unfold clamp, saturate.
  destruct (Z.ltb_spec a (lowest signed prec)); [lia |]. destruct (Z.ltb_spec (highest signed prec) a); lia.
Qed.

Lemma shift_val : forall signed prec, 1 <= prec <= 31 ->
  default_shift (flag signed) prec = if signed then 0 else 2 ^ (prec - 1).
Proof.
  intros signed prec H. unfold default_shift. destruct signed; cbn [flag Z.eqb]; [reflexivity |].
  rewrite u32_id by lia. apply shl_ok. lia.
Qed.

Lemma sample_i32 : forall signed prec x, 1 <= prec <= 31 -> sample signed prec x -> in_i32 x.
Proof.
  intros signed prec x H [A B]. unfold in_i32, lowest, highest in *. pose proof (pow_le31 (prec - 1) ltac:(lia)).
  assert (E : 2 ^ prec = 2 * 2 ^ (prec - 1)) by (replace prec with (Z.succ (prec - 1)) at 1 by lia; apply Z.pow_succ_r; lia).
  destruct signed; lia.
Qed.

(** One sample, reversible path: shifting centres the sample around zero, and
    shifting back restores it, for whatever shift is in force. *)
Theorem c37_round_trip : forall signed prec shift x, 1 <= prec <= 31 -> sample signed prec x ->
  let '(lo, hi) := range_of (flag signed) prec in
  shift_dec shift lo hi (shift_enc shift x) = x.
Proof.
  intros signed prec shift x H Hx. destruct (c37_range_ok signed prec H) as [-> _]. unfold shift_dec, shift_enc.
  rewrite i32_sub_add by (eapply sample_i32; eassumption). rewrite clamp_sat by exact H.
  unfold saturate. destruct Hx. lia.
Qed.

Theorem c37_centred : forall signed prec x, 1 <= prec <= 31 -> sample signed prec x ->
  let y := shift_enc (default_shift (flag signed) prec) x in - 2 ^ (prec - 1) <= y < 2 ^ (prec - 1).
Proof.
  intros signed prec x H Hx. cbn zeta. rewrite shift_val by exact H. unfold shift_enc.
  pose proof (sample_i32 signed prec x H Hx) as R. destruct Hx as [A B]. unfold lowest, highest, in_i32 in *.
  pose proof (pow_le31 (prec - 1) ltac:(lia)) as P.
  assert (E : 2 ^ prec = 2 * 2 ^ (prec - 1)) by (replace prec with (Z.succ (prec - 1)) at 1 by lia; apply Z.pow_succ_r; lia).
  destruct signed; rewrite i32_id by (unfold in_i32; lia); lia.
Qed.

(** Decoded samples are in range whatever the decoder was given. *)
Theorem c37_in_range : forall signed prec shift x, 1 <= prec <= 31 ->
  let '(lo, hi) := range_of (flag signed) prec in sample signed prec (shift_dec shift lo hi x).
Proof.
  intros signed prec shift x H. destruct (c37_range_ok signed prec H) as [-> L]. unfold shift_dec.
  rewrite clamp_sat by exact H. unfold sample, saturate. lia.
Qed.

(** The sum saturates as long as it does not leave 32 bits. *)
Theorem c37_saturates : forall signed prec shift x, 1 <= prec <= 31 -> in_i32 (x + shift) ->
  let '(lo, hi) := range_of (flag signed) prec in shift_dec shift lo hi x = saturate signed prec (x + shift).
Proof.
  intros signed prec shift x H Hs. destruct (c37_range_ok signed prec H) as [-> _]. unfold shift_dec.
  rewrite i32_id by exact Hs. apply clamp_sat, H.
Qed.

(** Beyond it wraps: a coefficient near the top of the 32-bit range comes out
    black instead of white. *)
Theorem c37_saturates_refuted : exists x, in_i32 x /\
  let '(lo, hi) := range_of 0 8 in
  shift_dec (default_shift 0 8) lo hi x = 0 /\ saturate false 8 (x + default_shift 0 8) = 255.
Proof. exists (2 ^ 31 - 1). vm_compute. repeat split; discriminate. Qed.

(** A whole plane: exactly the visible samples change, each to its shifted
    value, wherever the stride puts it. *)
Lemma enc_row : forall (f : Z -> Z) n p m, 0 <= n ->
  let '(q, m') := for_to 0 n (fun _ '(p, m) => (p + 1, upd m p (f (m p)))) (p, m) in
  q = p + n /\ (forall x, m' x = if (p <=? x) && (x <? p + n) then f (m x) else m x).
Proof.
  intros f n p m Hn.
  apply (for_ind (fun k s => let '(q, m') := s in
    q = p + k /\ (forall x, m' x = if (p <=? x) && (x <? p + k) then f (m x) else m x))); [lia | |].
  - split; [lia |]. intros x. destruct (Z.leb_spec p x), (Z.ltb_spec x (p + 0)); cbn [andb]; try reflexivity; lia.
  - intros i [q m'] Hi [-> M]. split; [lia |]. intros x. destruct (Z.eq_dec x (p + i)) as [-> | Hne].
    + rewrite upd_same. rewrite M. destruct (Z.leb_spec p (p + i)), (Z.ltb_spec (p + i) (p + i)),
        (Z.ltb_spec (p + i) (p + (i + 1))); cbn [andb]; try lia; reflexivity.
    + rewrite upd_other by exact Hne. rewrite M.
      destruct (Z.leb_spec p x), (Z.ltb_spec x (p + i)), (Z.ltb_spec x (p + (i + 1))); cbn [andb]; try lia; reflexivity.
Qed.

Theorem c37_encode_plane : forall shift n m x, 0 <= n ->
  enc_plane shift n m x = if (0 <=? x) && (x <? n) then shift_enc shift (m x) else m x.
Proof.
  intros shift n m x Hn. unfold enc_plane. pose proof (enc_row (shift_enc shift) n 0 m Hn) as E.
  destruct (for_to 0 n _ _) as [q m']. destruct E as [_ E]. cbn [snd]. apply E.
Qed.

Theorem c37_decode_plane : forall shift lo hi w h stride m, 0 <= w -> 0 <= h -> 0 <= stride ->
  (forall i j, 0 <= i < w -> 0 <= j < h ->
     dec_plane shift lo hi w h stride m (j * (w + stride) + i) = shift_dec shift lo hi (m (j * (w + stride) + i))) /\
  (forall x, (forall i j, 0 <= i < w -> 0 <= j < h -> x <> j * (w + stride) + i) -> dec_plane shift lo hi w h stride m x = m x).
Proof.
  intros shift lo hi w h s m Hw Hh Hs. unfold dec_plane.
  pose (P := fun k (st : Z * mem) => let '(p, m') := st in
    p = k * (w + s) /\
    (forall i j, 0 <= i < w -> 0 <= j < k -> m' (j * (w + s) + i) = shift_dec shift lo hi (m (j * (w + s) + i))) /\
    (forall x, (forall i j, 0 <= i < w -> 0 <= j < k -> x <> j * (w + s) + i) -> m' x = m x)).
  match goal with |- context [for_to 0 h ?F (0, m)] => assert (G : P h (for_to 0 h F (0, m))) end.
  { apply for_ind; [exact Hh | |].
    - unfold P. repeat split; [intros; lia].
    - intros k [p m'] Hk (-> & A & B).
      pose proof (enc_row (shift_dec shift lo hi) w (k * (w + s)) m' Hw) as E.
      destruct (for_to 0 w _ _) as [q m2]. destruct E as [-> E]. unfold P. split; [lia | split].
      + intros i j Hi Hj. rewrite E. destruct (Z.eq_dec j k) as [-> | Hne].
        * destruct (Z.leb_spec (k * (w + s)) (k * (w + s) + i)), (Z.ltb_spec (k * (w + s) + i) (k * (w + s) + w));
            cbn [andb]; try lia. f_equal. apply B. intros i' j' Hi' Hj' X.
          apply row_col in X; lia.
        * assert (j * (w + s) + i < k * (w + s)) by nia.
          destruct (Z.leb_spec (k * (w + s)) (j * (w + s) + i)); [lia |]. cbn [andb]. apply A; lia.
      + intros x Hx. rewrite E.
        destruct (Z.leb_spec (k * (w + s)) x), (Z.ltb_spec x (k * (w + s) + w)); cbn [andb];
          try (apply B; intros i' j' Hi' Hj'; apply Hx; lia).
        exfalso. apply (Hx (x - k * (w + s)) k); lia. }
  destruct (for_to 0 h _ (0, m)) as [p m']. destruct G as (_ & A & B). cbn [snd]. split; assumption.
Qed.

(** Irreversible path: the decoder saturates for every float, with no wrap. *)
Lemma div_rne_near : forall m d, 0 < d -> 2 * Z.abs (div_rne m d * d - m) <= d.
Proof.
  intros m d Hd. unfold div_rne. pose proof (Z.div_mod m d ltac:(lia)) as E. pose proof (Z.mod_pos_bound m d Hd) as B.
  set (q := m / d) in *. set (r := m mod d) in *.
  destruct (Z.ltb_spec (2 * r) d); [lia |]. destruct (Z.ltb_spec d (2 * r)); [lia |]. destruct (Z.even q); lia.
Qed.

(** Exact value of a finite float, as a fraction over [2^k] with [k] large enough. *)
Definition rounds_to (f : f32) (n : Z) : Prop :=
  match f with
  | NaN => n = 0
  | Inf _ => False
  | Fin m e => if 0 <=? e then n = m * 2 ^ e
               else 2 * Z.abs (n * 2 ^ (- e) - m) <= 2 ^ (- e) /\
                    (2 * Z.abs (n * 2 ^ (- e) - m) = 2 ^ (- e) -> Z.even n = true)
  end.

Lemma div_rne_even : forall m d, 0 < d -> 2 * Z.abs (div_rne m d * d - m) = d -> Z.even (div_rne m d) = true.
Proof.
  intros m d Hd. unfold div_rne. pose proof (Z.div_mod m d ltac:(lia)) as E. pose proof (Z.mod_pos_bound m d Hd) as B.
  set (q := m / d) in *. set (r := m mod d) in *.
  destruct (Z.ltb_spec (2 * r) d); [lia |]. destruct (Z.ltb_spec d (2 * r)); [lia |].
  destruct (Z.even q) eqn:Ev; intros _; [exact Ev |]. rewrite Z.even_add, Ev. reflexivity.
Qed.

(** Rounding never crosses an integer. *)
Lemma div_rne_le : forall m d k, 0 < d -> m <= k * d -> div_rne m d <= k.
Proof. intros m d k Hd H. pose proof (div_rne_near m d Hd). destruct (Z_le_gt_dec (div_rne m d) k); [assumption | nia]. Qed.
Lemma div_rne_ge : forall m d k, 0 < d -> k * d <= m -> k <= div_rne m d.
Proof. intros m d k Hd H. pose proof (div_rne_near m d Hd). destruct (Z_le_gt_dec k (div_rne m d)); [assumption | nia]. Qed.

Lemma i64_id : forall x, - 2 ^ 63 <= x < 2 ^ 63 -> i64 x = x.
Proof. intros x H. unfold i64. rewrite Z.mod_small; lia. Qed.

Lemma near_unique : forall d m n k, 0 < d -> 2 * Z.abs (n * d - m) <= d -> 2 * Z.abs (k * d - m) <= d ->
  (2 * Z.abs (n * d - m) = d -> Z.even n = true) -> (2 * Z.abs (k * d - m) = d -> Z.even k = true) -> n = k.
Proof.
  intros d m n k Hd A B C D. destruct (Z.eq_dec n k) as [| Hne]; [assumption | exfalso].
  assert (X : d <= Z.abs (n * d - k * d)) by (replace (n * d - k * d) with ((n - k) * d) by lia; rewrite Z.abs_mul; nia).
  assert (Y : Z.abs (n * d - k * d) <= d) by lia.
  assert (Z.abs (n - k) = 1) by (replace (n * d - k * d) with ((n - k) * d) in * by lia; rewrite Z.abs_mul in *; nia).
  assert (N : Z.even n = true) by (apply C; lia). assert (K : Z.even k = true) by (apply D; lia).
  assert (n = k + 1 \/ k = n + 1) as [-> | ->] by lia; rewrite Z.even_add in *; rewrite ?N, ?K in *; discriminate.
Qed.

Lemma rounds_unique : forall f n k, rounds_to f n -> rounds_to f k -> n = k.
Proof.
  intros [| s | m e] n k; cbn [rounds_to]; [congruence | tauto |].
  destruct (Z.leb_spec 0 e); [congruence |]. intros [A C] [B D]. eapply near_unique; try eassumption.
  apply Z.pow_pos_nonneg; lia.
Qed.

(** [n] is the nearest integer to the float (ties to even); the result is
    [n + shift], saturated. NaN counts as 0. *)
Theorem c37_float_saturates : forall signed prec f n, 1 <= prec <= 31 -> rounds_to f n ->
  let '(lo, hi) := range_of (flag signed) prec in
  let shift := default_shift (flag signed) prec in
  shift_dec_f shift lo hi f = saturate signed prec (n + shift).
Proof.
  intros signed prec f n H R. destruct (c37_range_ok signed prec H) as [-> L]. cbn zeta. rewrite shift_val by exact H.
  pose proof (pow_le31 (prec - 1) ltac:(lia)) as P.
  assert (E : 2 ^ prec = 2 * 2 ^ (prec - 1)) by (replace prec with (Z.succ (prec - 1)) at 1 by lia; apply Z.pow_succ_r; lia).
  assert (Lr : - 2 ^ 30 <= lowest signed prec /\ highest signed prec < 2 ^ 31) by (unfold lowest, highest; destruct signed; lia).
  set (shift := if signed then 0 else 2 ^ (prec - 1)).
  assert (Sr : 0 <= shift <= 2 ^ 30) by (unfold shift; destruct signed; lia).
  assert (Hsat : forall x, sample signed prec (saturate signed prec x)) by (intros x; unfold sample, saturate; lia).
  assert (Fin_case : forall q, lrintf f = to_i64 q -> n = q ->
            (gt_int f (2 ^ 31) = true -> 2 ^ 31 <= q) -> (gt_int f (2 ^ 31) = false -> q <= 2 ^ 31) ->
            (lt_int f (- 2 ^ 31) = true -> q <= - 2 ^ 31) -> (lt_int f (- 2 ^ 31) = false -> - 2 ^ 31 <= q) ->
            shift_dec_f shift (lowest signed prec) (highest signed prec) f = saturate signed prec (n + shift)).
  { intros q Hq -> G1 G2 L1 L2. unfold shift_dec_f. destruct (gt_int f (2 ^ 31)).
    { specialize (G1 eq_refl). unfold saturate. lia. }
    destruct (lt_int f (- 2 ^ 31)).
    { specialize (L1 eq_refl). unfold saturate. lia. }
    specialize (G2 eq_refl). specialize (L2 eq_refl). rewrite Hq.
    assert (T : to_i64 q = q).
    { unfold to_i64, clamp. destruct (Z.ltb_spec q (- 2 ^ 63)); [lia |]. destruct (Z.ltb_spec (2 ^ 63 - 1) q); lia. }
    rewrite T. rewrite i64_id by lia. rewrite clamp_sat by exact H. apply i32_id. eapply sample_i32; [exact H | apply Hsat]. }
  destruct f as [| s | m e].
  - cbn in R. subst n. unfold shift_dec_f, gt_int, lt_int, lrintf. rewrite i64_id by lia.
    rewrite clamp_sat by exact H. apply i32_id. eapply sample_i32; [exact H | apply Hsat].
  - destruct R.
  - cbn [rounds_to] in R. destruct (Z.leb_spec 0 e) as [He | He].
    + subst n. apply (Fin_case (m * 2 ^ e)).
      * cbn [lrintf]. destruct (Z.leb_spec 0 e); [reflexivity | lia].
      * reflexivity.
      * cbn [gt_int]. destruct (Z.leb_spec 0 e); [| lia]. destruct (Z.ltb_spec (2 ^ 31) (m * 2 ^ e)); [lia | discriminate].
      * cbn [gt_int]. destruct (Z.leb_spec 0 e); [| lia]. destruct (Z.ltb_spec (2 ^ 31) (m * 2 ^ e)); [discriminate | lia].
      * cbn [lt_int]. destruct (Z.leb_spec 0 e); [| lia]. destruct (Z.ltb_spec (m * 2 ^ e) (- 2 ^ 31)); [lia | discriminate].
      * cbn [lt_int]. destruct (Z.leb_spec 0 e); [| lia]. destruct (Z.ltb_spec (m * 2 ^ e) (- 2 ^ 31)); [discriminate | lia].
    + destruct R as [R1 R2]. assert (D : 0 < 2 ^ (- e)) by (apply Z.pow_pos_nonneg; lia).
      assert (N : n = div_rne m (2 ^ (- e))) by
        (eapply near_unique; [exact D | exact R1 | apply div_rne_near, D | exact R2 | apply div_rne_even, D]).
      apply (Fin_case (div_rne m (2 ^ (- e)))).
      * cbn [lrintf]. destruct (Z.leb_spec 0 e); [lia | reflexivity].
      * exact N.
      * cbn [gt_int]. destruct (Z.leb_spec 0 e); [lia |]. destruct (Z.ltb_spec (2 ^ 31 * 2 ^ (- e)) m); [| discriminate].
        intros _. apply div_rne_ge; [exact D | lia].
      * cbn [gt_int]. destruct (Z.leb_spec 0 e); [lia |]. destruct (Z.ltb_spec (2 ^ 31 * 2 ^ (- e)) m); [discriminate |].
        intros _. apply div_rne_le; [exact D | lia].
      * cbn [lt_int]. destruct (Z.leb_spec 0 e); [lia |]. destruct (Z.ltb_spec m (- 2 ^ 31 * 2 ^ (- e))); [| discriminate].
        intros _. apply div_rne_le; [exact D | lia].
      * cbn [lt_int]. destruct (Z.leb_spec 0 e); [lia |]. destruct (Z.ltb_spec m (- 2 ^ 31 * 2 ^ (- e))); [discriminate |].
        intros _. apply div_rne_ge; [exact D | lia].
Qed.

Theorem c37_float_infinite : forall signed prec negative, 1 <= prec <= 31 ->
  let '(lo, hi) := range_of (flag signed) prec in
  shift_dec_f (default_shift (flag signed) prec) lo hi (Inf negative) = if negative then lowest signed prec else highest signed prec.
Proof.
  intros signed prec negative H. destruct (c37_range_ok signed prec H) as [-> _]. destruct negative; reflexivity.
Qed.

(** The irreversible path undoes the encoder for samples of up to 24 bits. *)
Theorem c37_float_round_trip : forall signed prec x, 1 <= prec <= 24 -> sample signed prec x ->
  let '(lo, hi) := range_of (flag signed) prec in
  let shift := default_shift (flag signed) prec in
  shift_dec_f shift lo hi (shift_enc_f shift x) = x.
Proof.
  intros signed prec x H Hx. pose proof (c37_centred signed prec x ltac:(lia) Hx) as C. cbn zeta in C.
  assert (P : 2 ^ (prec - 1) <= 2 ^ 23) by (apply Z.pow_le_mono_r; lia).
  assert (V : shift_enc_f (default_shift (flag signed) prec) x = Fin (x - default_shift (flag signed) prec) 0).
  { unfold shift_enc_f. fold (shift_enc (default_shift (flag signed) prec) x). unfold f32_of_int.
    destruct (Z.leb_spec (Z.abs (shift_enc (default_shift (flag signed) prec) x)) (2 ^ 24)); [| lia].
    f_equal. unfold shift_enc. rewrite i32_id; [reflexivity |].
    pose proof (sample_i32 signed prec x ltac:(lia) Hx). rewrite shift_val by lia. destruct Hx as [A B].
    unfold lowest, highest, in_i32 in *.
    destruct signed; pose proof (pow_le31 (prec - 1) ltac:(lia)); lia. }
  assert (R : rounds_to (Fin (x - default_shift (flag signed) prec) 0) (x - default_shift (flag signed) prec))
    by (cbn [rounds_to Z.leb Z.compare]; lia).
  pose proof (c37_float_saturates signed prec _ _ ltac:(lia) R) as S.
  destruct (range_of (flag signed) prec) as [lo hi]. cbn zeta in *. rewrite V, S.
  unfold saturate. destruct Hx. lia.
Qed.

(** With more bits it does not: the float drops the low bit. *)
Theorem c37_float_round_trip_refuted : exists x, sample true 26 x /\
  let '(lo, hi) := range_of 1 26 in
  shift_dec_f (default_shift 1 26) lo hi (shift_enc_f (default_shift 1 26) x) <> x.
Proof. exists (2 ^ 24 + 1). vm_compute. repeat split; discriminate. Qed.

Example c37_example :
  range_of 0 8 = (0, 255) /\ range_of 1 8 = (-128, 127) /\ default_shift 0 8 = 128 /\
  shift_enc 128 200 = 72 /\ shift_dec 128 0 255 72 = 200 /\ shift_dec 128 0 255 500 = 255 /\
  shift_dec_f 128 0 255 (Fin 5 (-1)) = 130 /\ shift_dec_f 128 0 255 (Fin 7 (-1)) = 132 /\
  shift_dec_f 128 0 255 NaN = 128 /\
  map (dec_plane 128 0 255 2 2 1 (fun x => 10 * x)) (0 :: 1 :: 2 :: 3 :: 4 :: 5 :: nil)%Z =
    (128 :: 138 :: 20 :: 158 :: 168 :: 50 :: nil)%Z.
Proof. vm_compute. repeat split. Qed.

Print Assumptions c37_range_ok.
Print Assumptions c37_round_trip.
Print Assumptions c37_centred.
Print Assumptions c37_in_range.
Print Assumptions c37_saturates.
Print Assumptions c37_saturates_refuted.
Print Assumptions c37_encode_plane.
Print Assumptions c37_decode_plane.
Print Assumptions c37_float_saturates.
Print Assumptions c37_float_infinite.
Print Assumptions c37_float_round_trip.
Print Assumptions c37_float_round_trip_refuted.
