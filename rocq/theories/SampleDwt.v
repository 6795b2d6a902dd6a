(** More about the 5/3 transform of a tile component: how large coefficients
    become, and that only the cells of the component matter to the decoder. *)

From Coq Require Import ZArith List Bool Lia.
From Verif Require Import I32 Mem DwtModel DwtSpec DwtProofs DwtLines DwtForward DwtColumns DwtTile DwtProps.
Import ListNotations.
Local Open Scope Z_scope.
Ltac Zify.zify_post_hook ::= Z.div_mod_to_equations.

(** ** Gain of one line *)

(** Low-pass coefficients of samples up to [M] are no larger than this. *)
Definition lift (M : Z) : Z := M + (M + 1) / 2.

Lemma low_arith : forall M a h1 h2 y1 y2, - M <= a <= M -> - M <= h1 <= M -> - M <= h2 <= M -> - M <= y1 <= M -> - M <= y2 <= M ->
  - lift M <= a + (h1 - (a + y1) / 2 + (h2 - (a + y2) / 2) + 2) / 4 <= lift M.
Proof. unfold lift. intros. lia. Qed.

Lemma flow_gain : forall cas n M x, cas = 0 \/ cas = 1 -> 2 <= n -> 0 <= M -> 4 * M < 2 ^ 31 - 2 -> (forall p, 0 <= p < n -> - M <= x p <= M) ->
  forall i, 0 <= i < nlow cas n -> - lift M <= flow cas n x i <= lift M.
Proof.
  intros cas n M x Hc Hn HM HM' Hx i Hi. destruct (flow_exact cas n M x Hc Hn HM HM' Hx i Hi) as [-> _]. unfold std_low, nlow in *. set (p := lowp cas i) in *.
  assert (Hp : 0 <= p < n) by (subst p; unfold lowp; lia).
  assert (NB : forall q, q = reflect n (p - 1) \/ q = reflect n (p + 1) -> 0 <= q < n /\ exists y, 0 <= y < n /\ std_high n x q = x q - (x p + x y) / 2).
  { intros q Hq. assert (Rq : 0 <= q < n /\ (q = p - 1 \/ q = p + 1)).
    { unfold reflect in Hq. destruct (Z.ltb_spec (p - 1) 0), (Z.leb_spec n (p - 1)), (Z.ltb_spec (p + 1) 0), (Z.leb_spec n (p + 1)); lia. }
    destruct Rq as [Rq Q]. split; [exact Rq |]. unfold std_high. destruct Q as [Q | Q].
    - exists (reflect n (q - 1)). split; [unfold reflect; destruct (Z.ltb_spec (q - 1) 0), (Z.leb_spec n (q - 1)); lia |].
      replace (reflect n (q + 1)) with p by (unfold reflect; destruct (Z.ltb_spec (q + 1) 0), (Z.leb_spec n (q + 1)); lia). rewrite (Z.add_comm (x (reflect n (q - 1)))). reflexivity.
    - exists (reflect n (q + 1)). split; [unfold reflect; destruct (Z.ltb_spec (q + 1) 0), (Z.leb_spec n (q + 1)); lia |].
      replace (reflect n (q - 1)) with p by (unfold reflect; destruct (Z.ltb_spec (q - 1) 0), (Z.leb_spec n (q - 1)); lia). reflexivity. }
  destruct (NB _ (or_introl eq_refl)) as (R1 & u & U & ->). destruct (NB _ (or_intror eq_refl)) as (R2 & v & V & ->).
  apply low_arith; apply Hx; assumption.
Qed.

Lemma fline_gain : forall cas n M x, cas = 0 \/ cas = 1 -> 0 <= M -> 4 * M < 2 ^ 31 - 2 -> (forall p, 0 <= p < n -> - M <= x p <= M) ->
  forall k, 0 <= k < n -> let B := if k <? nlow cas n then lift M else 2 * M in - B <= fline cas n x k <= B.
Proof.
  intros cas n M x Hc HM HM' Hx k Hk. cbn zeta. destruct (Z.ltb_spec k (nlow cas n)) as [L | L].
  - unfold fline. destruct (Z.eqb_spec n 1) as [E | E].
    + pose proof (Hx k Hk). unfold nlow in L. destruct (Z.eqb_spec cas 0); [unfold lift; lia | lia].
    + destruct (Z.ltb_spec k (nlow cas n)); [| lia]. apply (flow_gain cas n M x Hc ltac:(lia) HM HM' Hx k). lia.
  - replace (- (2 * M)) with (- (2 * M)) by lia. apply fline_bound; assumption.
Qed.

Lemma lift_mono : forall a b, a <= b -> lift a <= lift b.
Proof. unfold lift. intros. lia. Qed.
Lemma lift_bounds : forall M, 0 <= M -> M <= lift M <= 2 * M.
Proof. unfold lift. intros. lia. Qed.

(** ** Gain of a level *)

(** Bounds for the four bands of a level on samples up to [M]. *)
Definition gained (M o : Z) : Z := if o =? 0 then lift (lift M) else if o =? 1 then 2 * lift M else if o =? 2 then lift (2 * M) else 4 * M.
(** Which band cell [(c, p)] (column, row) falls into. *)
Definition quadrant (wl hl c p : Z) : Z := (if c <? wl then 0 else 1) + (if p <? hl then 0 else 2).

Lemma level_gain : forall w lo r st M, fits w r -> level_ok r -> halves lo r -> 0 <= M -> 8 * M < 2 ^ 31 - 2 ->
  region w (y1 r - y0 r) (x1 r - x0 r) (DwtProps.within M) (fst st) ->
  forall p c, 0 <= p < y1 r - y0 r -> 0 <= c < x1 r - x0 r ->
    DwtProps.within (gained M (quadrant (x1 lo - x0 lo) (y1 lo - y0 lo) c p)) (fst (encode_level w r st) (p * w + c)).
Proof.
  intros w lo r st M Hf Hok Hl HM HM' Hr p c Hp Hc. destruct (encode_vpass_spec w r st Hf) as [V1 _].
  set (s1 := encode_vpass w r st) in *. destruct (encode_hpass_spec w r s1 Hf Hok) as [H1 _]. destruct (halves_sizes _ _ Hl) as [-> ->].
  set (B1 := if p <? nlow (y0 r mod 2) (y1 r - y0 r) then lift M else 2 * M).
  pose proof (lift_bounds M HM) as LB.
  assert (A : forall q, 0 <= q < x1 r - x0 r -> - B1 <= fst s1 (p * w + q) <= B1).
  { intros q Hq. rewrite V1 by assumption. apply (fline_gain (y0 r mod 2) (y1 r - y0 r) M); [lia | lia | lia | intros k Hk; apply Hr; assumption | exact Hp]. }
  unfold encode_level. fold s1. rewrite H1 by assumption.
  assert (0 <= B1 /\ 4 * B1 < 2 ^ 31 - 2) as [P1 P2] by (subst B1; destruct (p <? _); lia).
  pose proof (fline_gain (x0 r mod 2) (x1 r - x0 r) B1 (fun k => fst s1 (p * w + k)) ltac:(lia) P1 P2 A c Hc) as G. cbn zeta in G. unfold DwtProps.within, gained, quadrant. subst B1.
  destruct (p <? nlow (y0 r mod 2) (y1 r - y0 r)), (c <? nlow (x0 r mod 2) (x1 r - x0 r));
    [change (0 + 0) with 0 | change (1 + 0) with 1 | change (0 + 2) with 2 | change (1 + 2) with 3]; cbn [Z.eqb Pos.eqb]; lia.
Qed.

(** ** All levels *)

(** Bound for the remaining low-pass band after [d] levels. *)
Fixpoint low_bound (M : Z) (d : nat) : Z := match d with O => M | S d => lift (lift (low_bound M d)) end.

Lemma low_bound_le : forall M d, 0 <= M -> 0 <= low_bound M d <= 4 ^ Z.of_nat d * M.
Proof.
  intros M d HM. induction d as [| d IH]; [cbn [low_bound]; change (Z.of_nat 0) with 0; rewrite Z.pow_0_r; lia |]. cbn [low_bound]. pose proof (lift_bounds (low_bound M d) (proj1 IH)) as A.
  pose proof (lift_bounds (lift (low_bound M d)) ltac:(lia)) as B. replace (Z.of_nat (S d)) with (Z.of_nat d + 1) by lia. rewrite Z.pow_add_r by lia. change (4 ^ 1) with 4. lia.
Qed.

Definition rw (t : rect) (l : Z) : Z := x1 (res_rect t l) - x0 (res_rect t l).
Definition rh (t : rect) (l : Z) : Z := y1 (res_rect t l) - y0 (res_rect t l).

Lemma rw_mono : forall t l, tile_ok t -> 0 <= l -> 0 <= rw t (l + 1) <= rw t l /\ 0 <= rh t (l + 1) <= rh t l.
Proof.
  intros t l (Hx & Hy & _) Hl. unfold rw, rh, res_rect. cbn [x0 x1 y0 y1].
  pose proof (ceil_diff (x0 t) (x1 t) l Hl ltac:(lia)). pose proof (ceil_diff (y0 t) (y1 t) l Hl ltac:(lia)). rewrite !ceil_step by lia. lia.
Qed.

Lemma levels_gain : forall t L M m tmp, tile_ok t -> 0 <= M -> 4 ^ Z.of_nat L * M < 2 ^ 30 ->
  (forall l, 0 <= l < Z.of_nat L -> level_ok (res_rect t l)) ->
  (forall p c, 0 <= p < y1 t - y0 t -> 0 <= c < x1 t - x0 t -> - M <= m (p * (x1 t - x0 t) + c) <= M) ->
  let w := x1 t - x0 t in
  let m' := fst (dwt_encode w (resolutions t (S L)) (m, tmp)) in
  (forall p c, 0 <= p < rh t (Z.of_nat L) -> 0 <= c < rw t (Z.of_nat L) -> DwtProps.within (low_bound M L) (m' (p * w + c))) /\
  (forall l, (l < L)%nat -> forall p c, 0 <= p < rh t (Z.of_nat l) -> 0 <= c < rw t (Z.of_nat l) ->
     let o := quadrant (rw t (Z.of_nat l + 1)) (rh t (Z.of_nat l + 1)) c p in o <> 0 -> DwtProps.within (gained (low_bound M l) o) (m' (p * w + c))).
Proof.
  intros t L M m tmp Ht HM HB Hok Hm w. unfold dwt_encode. rewrite resolutions_S. cbn [tl]. rewrite rev_resolutions. cbn zeta.
  assert (E0 : forall a, ceildivpow2 a 0 = a) by (intros a; rewrite ceildivpow2_eq by lia; change (2 ^ 0) with 1; rewrite Z.div_1_r; lia).
  assert (MON : forall i d, 0 <= i -> 0 <= rw t (i + Z.of_nat d) <= rw t i /\ 0 <= rh t (i + Z.of_nat d) <= rh t i).
  { intros i d Hi. induction d as [| d IH]; [| replace (i + Z.of_nat (S d)) with (i + Z.of_nat d + 1) by lia; pose proof (rw_mono t (i + Z.of_nat d) Ht ltac:(lia)); lia].
    cbn [Z.of_nat]. rewrite Z.add_0_r. destruct Ht as (X & Y & _). pose proof (ceil_diff (x0 t) (x1 t) i Hi ltac:(lia)). pose proof (ceil_diff (y0 t) (y1 t) i Hi ltac:(lia)). unfold rw, rh, res_rect. cbn [x0 x1 y0 y1]. lia. }
  induction L as [| L IH].
  - cbn [seq map fold_left]. split; [| intros; lia]. intros p c Hp Hc. unfold rw, rh, res_rect in Hp, Hc. cbn [x0 x1 y0 y1 Z.of_nat] in Hp, Hc. rewrite !E0 in *. cbn [low_bound fst]. apply Hm; assumption.
  - assert (HB4 : 4 * (4 ^ Z.of_nat L * M) < 2 ^ 30) by (replace (Z.of_nat (S L)) with (Z.of_nat L + 1) in HB by lia; rewrite Z.pow_add_r in HB by lia; change (4 ^ 1) with 4 in HB; lia).
    pose proof (low_bound_le M L HM) as LB.
    destruct IH as [I1 I2]; [lia | intros l Hl; apply Hok; lia |]. rewrite seq_S, map_app, fold_left_app. cbn [map fold_left Nat.add].
    set (st := fold_left (fun st r => encode_level w r st) (map (fun l => res_rect t (Z.of_nat l)) (seq 0 L)) (m, tmp)) in *.
    set (r := res_rect t (Z.of_nat L)) in *.
    assert (Hf : fits w r) by (apply fits_resolution; [exact Ht | lia]).
    assert (Hr : level_ok r) by (apply Hok; lia).
    assert (Hh : halves (res_rect t (Z.of_nat L + 1)) r) by (unfold halves, r, res_rect; cbn [x0 x1 y0 y1]; rewrite !ceil_step by lia; auto).
    pose proof (level_gain w _ r st (low_bound M L) Hf Hr Hh ltac:(lia) ltac:(lia) I1) as G.
    fold (rw t (Z.of_nat L + 1)) (rh t (Z.of_nat L + 1)) in G. change (x1 r - x0 r) with (rw t (Z.of_nat L)) in G. change (y1 r - y0 r) with (rh t (Z.of_nat L)) in G.
    pose proof (rw_mono t (Z.of_nat L) Ht ltac:(lia)) as MM. split.
    + intros p c Hp Hc. replace (Z.of_nat (S L)) with (Z.of_nat L + 1) in Hp, Hc by lia. specialize (G p c ltac:(lia) ltac:(lia)).
      unfold quadrant in G. destruct (Z.ltb_spec c (rw t (Z.of_nat L + 1))), (Z.ltb_spec p (rh t (Z.of_nat L + 1))); try lia. exact G.
    + intros l Hl p c Hp Hc Ho. destruct (Nat.eq_dec l L) as [-> | Hne]; [apply G; assumption |].
      (* a band of a level before: untouched *)
      assert (Hout : ~ (0 <= p < rh t (Z.of_nat L) /\ 0 <= c < rw t (Z.of_nat L))).
      { intros [P1 P2]. apply Ho. unfold quadrant. pose proof (MON (Z.of_nat l + 1) (L - S l)%nat ltac:(lia)) as N. replace (Z.of_nat l + 1 + Z.of_nat (L - S l)) with (Z.of_nat L) in N by lia.
        destruct (Z.ltb_spec c (rw t (Z.of_nat l + 1))), (Z.ltb_spec p (rh t (Z.of_nat l + 1))); lia. }
      assert (Hcw : 0 <= c < w) by (pose proof (MON 0 l ltac:(lia)) as N; cbn [Z.add] in N; unfold rw, rh, res_rect in N; cbn [x0 x1 y0 y1] in N; rewrite !E0 in N; unfold rw, rh, res_rect in Hc; cbn [x0 x1 y0 y1] in Hc; subst w; lia).
      unfold encode_level. destruct (encode_vpass_spec w r st Hf) as [_ V2]. destruct (encode_hpass_spec w r (encode_vpass w r st) Hf Hr) as [_ H2].
      rewrite H2 by assumption. rewrite V2 by assumption. apply I2; [lia | exact Hp | exact Hc | exact Ho].
Qed.

(** ** The decoder reads nothing outside the component *)

Definition agree (w h : Z) (m m' : mem) : Prop := forall p c, 0 <= p < h -> 0 <= c < w -> m (p * w + c) = m' (p * w + c).

Lemma decode_level_agree : forall w h lo r st st', fits w r -> y1 r - y0 r <= h -> halves lo r -> 0 <= x0 r -> 0 <= y0 r -> agree w h (fst st) (fst st') ->
  agree w h (fst (decode_level w lo r st)) (fst (decode_level w lo r st')).
Proof.
  intros w h lo r st st' Hf Hh Hl Hx Hy HA. unfold decode_level.
  destruct (decode_hpass_spec w lo r st Hf Hl Hx) as [A1 A2]. destruct (decode_hpass_spec w lo r st' Hf Hl Hx) as [B1 B2].
  set (s1 := decode_hpass w lo r st) in *. set (s2 := decode_hpass w lo r st') in *.
  destruct (decode_vpass_spec w lo r s1 Hf Hl Hy) as [C1 C2]. destruct (decode_vpass_spec w lo r s2 Hf Hl Hy) as [D1 D2].
  set (rh := y1 r - y0 r) in *. set (rw := x1 r - x0 r) in *. destruct Hf as (F1 & F2 & F3). fold rw in F1. fold rh in F2.
  assert (AH : agree w h (fst s1) (fst s2)).
  { intros p c Hp Hc. destruct (Z_lt_ge_dec p rh) as [P | P]; [destruct (Z_lt_ge_dec c rw) as [Q | Q] |].
    - rewrite A1, B1 by lia. apply iline_ext; [lia | lia | | lia]. intros k Hk. apply HA; lia.
    - rewrite A2, B2 by lia. apply HA; lia.
    - rewrite A2, B2 by lia. apply HA; lia. }
  intros p c Hp Hc. destruct (Z_lt_ge_dec p rh) as [P | P]; [destruct (Z_lt_ge_dec c rw) as [Q | Q] |].
  - rewrite C1, D1 by lia. apply iline_ext; [lia | lia | | lia]. intros k Hk. apply AH; lia.
  - rewrite C2, D2 by lia. apply AH; lia.
  - rewrite C2, D2 by lia. apply AH; lia.
Qed.

Lemma decode_levels_agree : forall w h rs lo st st', chain lo rs -> Forall (fun r => fits w r /\ y1 r - y0 r <= h /\ 0 <= x0 r /\ 0 <= y0 r) rs -> agree w h (fst st) (fst st') ->
  agree w h (fst (decode_levels w lo rs st)) (fst (decode_levels w lo rs st')).
Proof.
  intros w h. induction rs as [| r rs IH]; intros lo st st' Hc F HA; [exact HA |]. cbn [decode_levels]. destruct Hc as [H1 H2]. pose proof (Forall_inv F) as (F1 & F2 & F3 & F4).
  apply IH; [exact H2 | exact (Forall_inv_tail F) |]. apply decode_level_agree; assumption.
Qed.

Lemma decode_tile_agree : forall t n m m' buf buf', tile_ok t -> agree (x1 t - x0 t) (y1 t - y0 t) m m' ->
  agree (x1 t - x0 t) (y1 t - y0 t) (fst (dwt_decode_tile (x1 t - x0 t) (resolutions t n) (m, buf))) (fst (dwt_decode_tile (x1 t - x0 t) (resolutions t n) (m', buf'))).
Proof.
  intros t [| n] m m' buf buf' Ht HA; [exact HA |]. unfold dwt_decode_tile. rewrite resolutions_S. destruct (x1 t - x0 t =? 0); [exact HA |].
  apply decode_levels_agree; [apply chain_resolutions | | exact HA]. apply Forall_forall. intros r Hr. destruct (in_resolutions _ _ _ Hr) as (l & Hl & ->).
  split; [apply fits_resolution; [exact Ht | lia] |]. unfold res_rect. cbn [x0 x1 y0 y1]. destruct Ht as (Hx & Hy & _).
  pose proof (ceil_diff (y0 t) (y1 t) l ltac:(lia) ltac:(lia)). repeat split; [lia | apply ceil_nonneg; lia | apply ceil_nonneg; lia].
Qed.
