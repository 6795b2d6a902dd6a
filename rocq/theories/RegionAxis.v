(** The area asked for, on one axis (C66). *)

From Coq Require Import ZArith List Bool Arith Lia ZifyNat.
From Verif Require Import I32 Ints MathModel MathProps GeomModel GeomProofs GeomCover GeomProps AssembleModel AssembleProps HdrModel HdrSpec CodecModel CodecProofs CodecTiles RegionModel.
Import ListNotations.
Local Open Scope Z_scope.
Ltac Zify.zify_post_hook ::= idtac.

(** One axis of an accepted header: the image from [i0] to [i1], [n] tiles. *)
Definition axis_ok (i0 i1 t0 td n : Z) : Prop := 0 <= t0 <= i0 /\ i0 < i1 < 2 ^ 31 /\ 0 < td < 2 ^ 32 /\ i0 < t0 + td /\ ceil_of (i1 - t0) td n.

Lemma start_spec : forall i0 i1 t0 td n p, axis_ok i0 i1 t0 td n -> in_i32 p ->
  match start_axis i0 i1 t0 td p with
  | Some (t, a) => 0 <= p <= i1 /\ a = Z.max p i0 /\ t = (a - t0) / td
  | None => ~ 0 <= p <= i1
  end.
Proof.
  unfold axis_ok, in_i32, start_axis. intros i0 i1 t0 td n p (H0 & H1 & H2 & H3 & _) Hp. destruct (Z.ltb_spec p 0); [lia |]. rewrite (u32_id p) by lia.
  destruct (Z.ltb_spec i1 p); [lia |]. destruct (Z.ltb_spec p i0).
  - split; [lia |]. split; [lia |]. symmetry. apply Z.div_small. lia.
  - split; [lia |]. split; [lia |]. rewrite u32_id by lia. reflexivity.
Qed.

Lemma end_spec : forall i0 i1 t0 td n p, axis_ok i0 i1 t0 td n -> in_i32 p ->
  match end_axis i0 i1 t0 td n p with
  | Some (t, b) => 0 < p /\ i0 <= p /\ b = Z.min p i1 /\ ceil_of (b - t0) td t
  | None => ~ (0 < p /\ i0 <= p)
  end.
Proof.
  unfold axis_ok, in_i32, end_axis. intros i0 i1 t0 td n p (H0 & H1 & H2 & H3 & H4) Hp. destruct (Z.leb_spec p 0); [lia |]. rewrite (u32_id p) by lia.
  destruct (Z.ltb_spec p i0); [lia |]. destruct (Z.ltb_spec i1 p).
  - do 2 (split; [lia |]). split; [lia | exact H4].
  - rewrite u32_id by lia. destruct (c29_uint_ceildiv (p - t0) td) as (e & -> & C); [unfold is_u32; lia .. |]. do 2 (split; [lia |]). split; [lia | exact C].
Qed.

(** The tiles from the one with [a] to the one before that with [b] are those
    which the stretch from [a] to [b] meets. *)
Lemma met : forall i0 i1 t0 td n a b e p, axis_ok i0 i1 t0 td n -> i0 <= a < b -> b <= i1 -> ceil_of (b - t0) td e -> 0 <= p < n ->
  ((a - t0) / td <= p < e <-> exists x, within (Z.max (t0 + p * td) i0, Z.min (t0 + (p + 1) * td) i1) x /\ a <= x < b).
Proof.
  unfold axis_ok, ceil_of, within. cbn [fst snd]. intros i0 i1 t0 td n a b e p (H0 & H1 & H2 & H3 & H4) Ha Hb He Hp.
  pose proof (Z.div_mod (a - t0) td ltac:(lia)) as D. pose proof (Z.mod_pos_bound (a - t0) td ltac:(lia)) as M. set (q := (a - t0) / td) in *. set (r := (a - t0) mod td) in *. clearbody q r.
  assert (P1 : q <= p <-> a < t0 + (p + 1) * td) by (clear - D M H2; split; intros; nia).
  assert (P2 : p < e <-> t0 + p * td < b) by (clear - He H2; split; intros; nia).
  rewrite P1, P2. set (u := t0 + p * td) in *. replace (t0 + (p + 1) * td) with (u + td) in * by (unfold u; lia). split.
  - intros [A B]. exists (Z.max (Z.max u i0) a). assert (u < i1) by lia. lia.
  - intros (x & A & B). lia.
Qed.

Lemma dim_spec : forall w0 w1 d f, 0 <= w0 < 2 ^ 31 -> 0 <= w1 < 2 ^ 31 -> 1 <= d <= 255 -> 0 <= f <= 32 ->
  match dim_axis (w0, w1) d f with
  | Some (a, n) => ceil_of w0 d a /\ 0 <= n < 2 ^ 31 /\ 0 <= uint_ceildivpow2 a f /\ uint_ceildivpow2 a f + n < 2 ^ 31 /\ ceil_of w0 (d * 2 ^ f) (uint_ceildivpow2 a f) /\ ceil_of w1 (d * 2 ^ f) (uint_ceildivpow2 a f + n)
  | None => w1 < w0
  end.
Proof.
  intros w0 w1 d f H0 H1 Hd Hf. unfold dim_axis. cbn [fst snd]. destruct (Z.ltb_spec 2147483647 w0); [lia |]. destruct (Z.ltb_spec 2147483647 w1); [lia |]. cbn [orb].
  destruct (c29_uint_ceildiv w0 d) as (a & -> & A); [unfold is_u32; lia .. |]. rewrite !i32_id by (unfold in_i32; lia).
  destruct (c29_int_ceildiv w1 d ltac:(lia) ltac:(lia)) as (b & -> & B).
  pose proof (ceil_bound31 w0 d a ltac:(lia) ltac:(lia) A) as RA. pose proof (ceil_bound31 w1 d b ltac:(lia) ltac:(lia) B) as RB. rewrite (i32_id a) by (unfold in_i32; lia).
  pose proof (Z.pow_pos_nonneg 2 f ltac:(lia) ltac:(lia)) as P.
  pose proof (c29_int_ceildivpow2 b f ltac:(unfold in_i32; lia) ltac:(lia)) as CB. pose proof (c29_int_ceildivpow2 a f ltac:(unfold in_i32; lia) ltac:(lia)) as CA. pose proof (c29_uint_ceildivpow2 a f ltac:(unfold is_u32; lia) ltac:(lia)) as CU.
  rewrite (ceil_unique _ _ _ _ P CA CU). set (u := uint_ceildivpow2 a f) in *. set (v := int_ceildivpow2 b f) in *.
  pose proof (ceil_bound31 a (2 ^ f) u ltac:(lia) ltac:(lia) CU) as U. pose proof (ceil_bound31 b (2 ^ f) v ltac:(lia) ltac:(lia) CB) as V.
  rewrite i32_id by (unfold in_i32; lia). destruct (Z.ltb_spec (v - u) 0).
  - pose proof (c29_stages w0 d (2 ^ f) a u ltac:(lia) P A CU) as S0. pose proof (c29_stages w1 d (2 ^ f) b v ltac:(lia) P B CB) as S1. assert (0 < d * 2 ^ f) by nia. set (m := d * 2 ^ f) in *. clearbody m. clear - S0 S1 H2 H3. unfold ceil_of in *. nia.
  - rewrite u32_id by lia. fold u. split; [exact A |]. split; [lia |]. split; [lia |]. split; [lia |]. split; [exact (c29_stages w0 d (2 ^ f) a u ltac:(lia) P A CU) |]. replace (u + (v - u)) with v by lia. exact (c29_stages w1 d (2 ^ f) b v ltac:(lia) P B CB).
Qed.

Lemma ceil_within : forall w0 w1 m a b x, 0 < m -> ceil_of w0 m a -> ceil_of w1 m b -> within (a, b) x <-> within (w0, w1) (x * m).
Proof. unfold ceil_of, within. cbn [fst snd]. intros. split; intros; nia. Qed.

Lemma framed_axes : forall s tw th, framed s tw th -> axis_ok (x0 s) (x1 s) (tx0 s) (tdx s) tw /\ axis_ok (y0 s) (y1 s) (ty0 s) (tdy s) th /\ 0 < tw /\ 0 < th /\ tw * th <= 65535.
Proof.
  intros s tw th (H & Hx & Hy & _). destruct (header_axes _ _ _ _ _ _ H) as (W1 & W2 & W3 & Ax & Ay). destruct H as (U1 & U2 & U3 & U4 & U5 & U6 & U7 & U8 & _). cbn [fst snd] in *.
  apply siz_axis_spec in Ax; try assumption. apply siz_axis_spec in Ay; try assumption. unfold axis_ok, is_u32 in *. split; [| split; [| lia]]; (split; [lia |]; split; [lia |]; split; [lia |]; split; [lia | tauto]).
Qed.

Lemma tile_extent : forall s tw th i r, framed s tw th -> 0 <= i < tw * th -> tile_rect (x0 s, x1 s) (y0 s, y1 s) (tx0 s, tdx s) (ty0 s, tdy s) tw i = Some r ->
  let p := i mod tw in let q := i / tw in 0 <= p < tw /\ 0 <= q < th /\
  r = ((Z.max (tx0 s + p * tdx s) (x0 s), Z.min (tx0 s + (p + 1) * tdx s) (x1 s)), (Z.max (ty0 s + q * tdy s) (y0 s), Z.min (ty0 s + (q + 1) * tdy s) (y1 s))).
Proof.
  intros s tw th i r HF Hi E. cbn zeta. destruct (framed_axes s tw th HF) as (Ax & Ay & W1 & W2 & W3). destruct (flat_split tw th i ltac:(lia) Hi) as (P & Q & _). split; [exact P |]. split; [exact Q |].
  unfold tile_rect in E. cbn [fst snd] in E. unfold axis_ok in *.
  destruct (tile_axis_spec (x0 s) (x1 s) (tx0 s) (tdx s) tw (i mod tw)) as [Ex _]; try (unfold is_u32; lia); try tauto. destruct (tile_axis_spec (y0 s) (y1 s) (ty0 s) (tdy s) th (i / tw)) as [Ey _]; try (unfold is_u32; lia); try tauto.
  rewrite Ex, Ey in E. congruence.
Qed.
