(** Geometry on one axis: closed forms without wrap-around, and covering. *)

From Coq Require Import ZArith List Lia Bool.
From Verif Require Import I32 Ints MathModel MathProps GeomModel.
Local Open Scope Z_scope.

Definition within (e : Z * Z) (x : Z) : Prop := fst e <= x < snd e.

(** ** Tiles *)

Lemma siz_axis_spec : forall i0 i1 t0 td n, is_u32 i0 -> is_u32 i1 -> is_u32 t0 -> is_u32 td ->
  siz_axis i0 i1 t0 td = Some n ->
  0 < td /\ t0 <= i0 < i1 /\ i0 < t0 + td /\ ceil_of (i1 - t0) td n /\ 0 < n.
Proof.
  unfold is_u32. intros i0 i1 t0 td n H0 H1 H2 H3. unfold siz_axis.
  destruct (Z.leb_spec i1 i0); [discriminate |]. destruct (Z.eqb_spec td 0); [discriminate |].
  destruct (Z.ltb_spec i0 t0); [discriminate |]. destruct (Z.leb_spec (uint_adds t0 td) i0); [discriminate |].
  cbn [orb]. rewrite u32_id by lia. intros E.
  destruct (c29_uint_ceildiv (i1 - t0) td) as (q & E' & C); [unfold is_u32; lia .. |].
  rewrite E in E'. injection E' as <-. unfold uint_adds in *. unfold ceil_of in *.
  repeat split; try lia; nia.
Qed.

Lemma tile_axis_spec : forall i0 i1 t0 td n p, is_u32 i0 -> is_u32 t0 -> is_u32 td -> i1 < 2 ^ 31 ->
  0 < td -> t0 <= i0 < i1 -> i0 < t0 + td -> ceil_of (i1 - t0) td n -> 0 <= p < n ->
  tile_axis i0 i1 t0 td p = Some (Z.max (t0 + p * td) i0, Z.min (t0 + (p + 1) * td) i1) /\
  Z.max (t0 + p * td) i0 < Z.min (t0 + (p + 1) * td) i1.
Proof.
  unfold is_u32, ceil_of. intros i0 i1 t0 td n p H0 H2 H3 H1 Ht Hi Hc Hn Hp. unfold tile_axis.
  assert (A : t0 + p * td < i1) by nia. assert (B : 0 <= p * td) by nia.
  rewrite (u32_id (p * td)), (u32_id (t0 + p * td)) by lia.
  assert (L : Z.max (t0 + p * td) i0 < Z.min (t0 + (p + 1) * td) i1).
  { assert (t0 + td <= t0 + (p + 1) * td) by nia. lia. }
  assert (M : Z.min (uint_adds (t0 + p * td) td) i1 = Z.min (t0 + (p + 1) * td) i1).
  { unfold uint_adds. replace (t0 + (p + 1) * td) with (t0 + p * td + td) by lia. lia. }
  rewrite M, (i32_id (Z.max _ _)), (i32_id (Z.min _ _)) by (unfold in_i32; lia).
  destruct (Z.ltb_spec (Z.max (t0 + p * td) i0) 0); [lia |].
  destruct (Z.leb_spec (Z.min (t0 + (p + 1) * td) i1) (Z.max (t0 + p * td) i0)); [lia |].
  cbn [orb]. split; [reflexivity | exact L].
Qed.

(** Tile column of a sample. *)
Lemma tile_axis_cover : forall i0 i1 t0 td n x, 0 < td -> t0 <= i0 < i1 -> i0 < t0 + td -> ceil_of (i1 - t0) td n ->
  i0 <= x < i1 ->
  let p := (x - t0) / td in 0 <= p < n /\ within (Z.max (t0 + p * td) i0, Z.min (t0 + (p + 1) * td) i1) x.
Proof.
  unfold ceil_of, within. cbn [fst snd]. intros i0 i1 t0 td n x Ht Hi Hc Hn Hx. cbn zeta.
  pose proof (Z.div_mod (x - t0) td ltac:(lia)) as E. pose proof (Z.mod_pos_bound (x - t0) td Ht) as B.
  set (p := (x - t0) / td) in *. assert (0 <= p) by nia. assert (p < n) by nia.
  replace ((p + 1) * td) with (p * td + td) by lia. lia.
Qed.

Lemma tile_axis_only : forall i0 i1 t0 td x p, 0 < td ->
  within (Z.max (t0 + p * td) i0, Z.min (t0 + (p + 1) * td) i1) x -> p = (x - t0) / td.
Proof.
  unfold within. cbn [fst snd]. intros i0 i1 t0 td x p Ht H.
  apply (Z.div_unique_pos (x - t0) td p (x - t0 - p * td)); nia.
Qed.

(** ** Components: sample [x] sits at reference position [x * d]. *)
Lemma comp_axis_spec : forall lo hi d, 0 <= lo < 2 ^ 31 -> 0 <= hi < 2 ^ 31 -> 1 <= d < 2 ^ 31 ->
  exists c, comp_axis (lo, hi) d = Some c /\ forall x, within c x <-> within (lo, hi) (x * d).
Proof.
  intros lo hi d Hlo Hhi Hd. unfold comp_axis. cbn [fst snd]. rewrite i32_id by (unfold in_i32; lia).
  destruct (c29_int_ceildiv lo d Hlo ltac:(lia)) as (a & -> & A).
  destruct (c29_int_ceildiv hi d Hhi ltac:(lia)) as (b & -> & B).
  exists (a, b). split; [reflexivity |]. unfold within, ceil_of in *. cbn [fst snd].
  intros x. split; intros; split; nia.
Qed.

(** ** Bands, precincts and code-blocks *)

Lemma pow_pos : forall k, 0 <= k -> 1 <= 2 ^ k.
Proof. intros k H. pose proof (Z.pow_pos_nonneg 2 k ltac:(lia) H). lia. Qed.

Lemma shl_small : forall a b, 0 <= b < 32 -> 0 <= a -> a * 2 ^ b < 2 ^ 31 -> shl_i32 a b = a * 2 ^ b.
Proof.
  intros a b Hb Ha Hr. unfold shl_i32. rewrite Z.mod_small by lia. rewrite Z.shiftl_mul_pow2 by lia.
  apply i32_id. unfold in_i32. pose proof (pow_pos b ltac:(lia)). nia.
Qed.

Lemma shlu_small : forall a b, 0 <= b < 32 -> 0 <= a -> a * 2 ^ b < 2 ^ 32 -> shl_u32 a b = a * 2 ^ b.
Proof.
  intros a b Hb Ha Hr. unfold shl_u32. rewrite Z.mod_small by lia. rewrite Z.shiftl_mul_pow2 by lia.
  apply u32_id. pose proof (pow_pos b ltac:(lia)). nia.
Qed.

Lemma shr_exact : forall a b, 0 <= b < 32 -> shr_i32 (a * 2 ^ b) b = a.
Proof.
  intros a b Hb. unfold shr_i32. rewrite Z.mod_small by lia. rewrite Z.shiftr_div_pow2 by lia.
  apply Z.div_mul. pose proof (pow_pos b ltac:(lia)). lia.
Qed.

Definition extent (c : Z * Z) : Prop := 0 <= fst c <= snd c /\ snd c < 2 ^ 31.

Lemma ceil_mono : forall a b d p q, 0 < d -> a <= b -> ceil_of a d p -> ceil_of b d q -> p <= q.
Proof. unfold ceil_of. intros. nia. Qed.

Lemma ceil_bound31 : forall a d p, 0 < d -> 0 <= a < 2 ^ 31 -> ceil_of a d p -> 0 <= p < 2 ^ 31.
Proof. unfold ceil_of. intros. nia. Qed.

Lemma res_axis_spec : forall c l, extent c -> 0 <= l <= 32 ->
  ceil_of (fst c) (2 ^ l) (fst (res_axis c l)) /\ ceil_of (snd c) (2 ^ l) (snd (res_axis c l)) /\ extent (res_axis c l).
Proof.
  intros [a b] l [H0 H1] Hl. cbn [fst snd] in *. unfold res_axis. cbn [fst snd].
  pose proof (c29_int_ceildivpow2 a l ltac:(unfold in_i32; lia) ltac:(lia)) as A.
  pose proof (c29_int_ceildivpow2 b l ltac:(unfold in_i32; lia) ltac:(lia)) as B.
  pose proof (pow_pos l ltac:(lia)) as P. split; [exact A | split; [exact B |]]. unfold extent. cbn [fst snd].
  pose proof (ceil_mono _ _ (2 ^ l) _ _ ltac:(lia) (proj2 H0) A B).
  pose proof (ceil_bound31 a (2 ^ l) _ ltac:(lia) ltac:(lia) A). pose proof (ceil_bound31 b (2 ^ l) _ ltac:(lia) ltac:(lia) B). lia.
Qed.

(** The band in terms of the component (Annex B, equation B-15). *)
Lemma band_axis_spec : forall resno c l o, extent c -> 0 <= l <= 32 -> 0 <= resno -> 0 <= o <= 1 -> (0 < resno -> l <= 31) ->
  let den := if resno =? 0 then 2 ^ l else 2 ^ (l + 1) in
  let off := if resno =? 0 then 0 else o * 2 ^ l in
  ceil_of (fst c - off) den (fst (band_axis resno c l o)) /\ ceil_of (snd c - off) den (snd (band_axis resno c l o)).
Proof.
  intros resno [a b] l o [H0 H1] Hl Hr Ho Hrl. cbn [fst snd] in *. cbn zeta. unfold band_axis.
  destruct (Z.eqb_spec resno 0) as [-> | Hne]; cbn [fst snd].
  - rewrite !Z.sub_0_r. split; apply c29_int_ceildivpow2; (unfold in_i32; lia).
  - specialize (Hrl ltac:(lia)). rewrite (Z.mod_small l 64) by lia. rewrite Z.shiftl_mul_pow2 by lia.
    pose proof (pow_pos l ltac:(lia)) as P. assert (P' : 2 ^ l <= 2 ^ 31) by (apply Z.pow_le_mono_r; lia).
    assert (E : 2 ^ (l + 1) = 2 * 2 ^ l) by (rewrite Z.pow_add_r by lia; lia).
    assert (Q : 0 <= o * 2 ^ l <= 2 ^ 31) by nia.
    rewrite (MathProps.i64_id (o * 2 ^ l)), (MathProps.i64_id (a - o * 2 ^ l)), (MathProps.i64_id (b - o * 2 ^ l)) by lia.
    rewrite u32_id by lia.
    split; apply c29_int64_ceildivpow2; try lia; rewrite E; nia.
Qed.

(** ... and in terms of the resolution it belongs to. *)
Lemma band_of_res : forall resno c l o, extent c -> 0 <= l <= 32 -> 0 < resno -> 0 <= o <= 1 -> l <= 31 ->
  ceil_of (fst (res_axis c l) - o) 2 (fst (band_axis resno c l o)) /\
  ceil_of (snd (res_axis c l) - o) 2 (snd (band_axis resno c l o)).
Proof.
  intros resno c l o Hc Hl Hr Ho Hl'.
  pose proof (band_axis_spec resno c l o Hc Hl ltac:(lia) Ho ltac:(lia)) as B. cbn zeta in B.
  destruct (Z.eqb_spec resno 0); [lia |].
  destruct (res_axis_spec c l Hc Hl) as (R0 & R1 & _).
  pose proof (pow_pos l ltac:(lia)) as P.
  assert (E : 2 ^ (l + 1) = 2 * 2 ^ l) by (rewrite Z.pow_add_r by lia; lia).
  rewrite E in B. destruct B as [B0 B1]. unfold ceil_of in *.
  set (d := 2 ^ l) in *. split; split; nia.
Qed.

Lemma ceil_zero : forall resno c l o, extent c -> 0 <= l <= 32 -> resno = 0 -> band_axis resno c l o = res_axis c l.
Proof. intros resno c l o _ _ ->. reflexivity. Qed.

Lemma prec_axis_spec : forall r pd start n, extent r -> 0 <= pd <= 15 -> prec_axis r pd = Some (start, n) ->
  exists s e, start = s * 2 ^ pd /\ 0 <= s /\ s * 2 ^ pd <= fst r < (s + 1) * 2 ^ pd /\
    ceil_of (snd r) (2 ^ pd) e /\ e * 2 ^ pd < 2 ^ 31 /\ n = (if fst r =? snd r then 0 else e - s) /\ 0 <= n /\
    (fst r < snd r -> 0 < n).
Proof.
  intros [a b] pd start n [H0 H1] Hp. cbn [fst snd] in *. unfold prec_axis. cbn [fst snd].
  pose proof (c29_floordivpow2 a pd ltac:(lia)) as F. cbn zeta in F. set (s := int_floordivpow2 a pd) in *.
  pose proof (c29_int_ceildivpow2 b pd ltac:(unfold in_i32; lia) ltac:(lia)) as C. set (e := int_ceildivpow2 b pd) in *.
  pose proof (pow_pos pd ltac:(lia)) as P. assert (P' : 2 ^ pd <= 2 ^ 15) by (apply Z.pow_le_mono_r; lia).
  set (d := 2 ^ pd) in *.
  assert (Hs : 0 <= s) by nia. assert (He : 0 <= e < 2 ^ 31) by (eapply ceil_bound31; [| | exact C]; lia).
  assert (Hed : e * d < 2 ^ 31 + 2 ^ 15) by (unfold ceil_of in C; nia).
  rewrite (shl_small s pd) by (fold d; lia). rewrite (u32_id e) by lia.
  rewrite (shlu_small e pd) by (fold d; lia). fold d.
  destruct (Z.ltb_spec 2147483647 (e * d)); [discriminate |]. intros E. injection E as <- <-.
  exists s, e. repeat split; try lia; try exact (proj1 C); try exact (proj2 C).
  - destruct (Z.eqb_spec a b); [reflexivity |].
    assert (s < e) by (unfold ceil_of in C; nia).
    assert (0 <= e * d) by nia. assert (0 <= s * d) by nia.
    rewrite (i32_id (e * d)), (i32_id (e * d - s * d)) by (unfold in_i32; lia).
    replace (e * d - s * d) with ((e - s) * d) by lia. unfold d. rewrite shr_exact by lia. apply u32_id. lia.
  - destruct (Z.eqb_spec a b); [lia |]. apply u32_range.
  - intros L. destruct (Z.eqb_spec a b); [lia |].
    assert (s < e) by (unfold ceil_of in C; nia).
    assert (0 <= e * d) by nia. assert (0 <= s * d) by nia.
    rewrite (i32_id (e * d)), (i32_id (e * d - s * d)) by (unfold in_i32; lia).
    replace (e * d - s * d) with ((e - s) * d) by lia. unfold d. rewrite shr_exact by lia. rewrite u32_id; lia.
Qed.

(** The precinct grid seen from the band: cells of size [2^e] starting at [g]
    cover the band, no cell lies beyond it, and nothing overflows. *)
Definition grid_ok (g e n : Z) (b : Z * Z) : Prop :=
  0 <= g /\ 0 <= e <= 15 /\ 0 <= n /\ (exists k, g = k * 2 ^ e) /\ 0 <= fst b <= snd b /\ snd b < 2 ^ 31 /\
  (n = 0 -> fst b = snd b) /\
  (0 < n -> g + n * 2 ^ e < 2 ^ 31 /\ g <= fst b <= g + 2 ^ e /\ g + (n - 1) * 2 ^ e <= snd b <= g + n * 2 ^ e).

Lemma group_grid : forall resno c l o pd start n, extent c -> 0 <= l <= 32 -> 0 <= resno -> 0 <= o <= 1 ->
  (0 < resno -> l <= 31) -> 0 <= pd <= 15 -> (0 < resno -> 1 <= pd) -> prec_axis (res_axis c l) pd = Some (start, n) ->
  let '(g, e) := group_axis resno start pd in grid_ok g e n (band_axis resno c l o).
Proof.
  intros resno c l o pd start n Hc Hl Hr Ho Hrl Hpd Hpd1 E.
  destruct (res_axis_spec c l Hc Hl) as (_ & _ & Hext).
  apply prec_axis_spec in E; [| exact Hext | exact Hpd]. destruct E as (s & e & -> & Hs & Hf & Hc' & He & Hn & Hn0 & Hnp).
  pose proof (pow_pos pd ltac:(lia)) as P. unfold group_axis, grid_ok.
  destruct (Z.eqb_spec resno 0) as [-> | Hne].
  - rewrite (ceil_zero 0 c l o Hc Hl eq_refl). set (r := res_axis c l) in *. destruct Hext as [X Y].
    unfold ceil_of in Hc'. set (d := 2 ^ pd) in *.
    split; [nia |]. split; [lia |]. split; [lia |]. split; [exists s; reflexivity |]. split; [lia |]. split; [lia |].
    split; [intros N; lia |].
    intros N. destruct (Z.eqb_spec (fst r) (snd r)); [lia |]. subst n. repeat split; nia.
  - specialize (Hrl ltac:(lia)). specialize (Hpd1 ltac:(lia)).
    destruct (band_of_res resno c l o Hc Hl ltac:(lia) Ho Hrl) as [B0 B1].
    set (b := band_axis resno c l o) in *. set (r := res_axis c l) in *. destruct Hext as [X Y].
    rewrite u32_id by lia.
    assert (D : 2 ^ pd = 2 * 2 ^ (pd - 1)) by (replace pd with (Z.succ (pd - 1)) at 1 by lia; apply Z.pow_succ_r; lia).
    pose proof (pow_pos (pd - 1) ltac:(lia)) as P1. set (h := 2 ^ (pd - 1)) in *.
    assert (G : int_ceildivpow2 (s * 2 ^ pd) 1 = s * h).
    { pose proof (c29_int_ceildivpow2 (s * 2 ^ pd) 1 ltac:(unfold in_i32; nia) ltac:(lia)) as C1.
      unfold ceil_of in C1. change (2 ^ 1) with 2 in C1. rewrite D in C1 |- *. nia. }
    rewrite G. rewrite D in *. unfold ceil_of in *.
    assert (Sh : 0 <= s * h) by nia.
    split; [lia |]. split; [lia |]. split; [lia |]. split; [exists s; reflexivity |]. split; [lia |]. split; [lia |].
    split; [intros N; lia |].
    intros N. destruct (Z.eqb_spec (fst r) (snd r)); [lia |]. subst n. repeat split; nia.
Qed.

Lemma precinct_spec : forall g e n b k, grid_ok g e n b -> 0 <= k < n ->
  precinct_axis g e b k = (Z.max (g + k * 2 ^ e) (fst b), Z.min (g + (k + 1) * 2 ^ e) (snd b)) /\
  0 <= Z.max (g + k * 2 ^ e) (fst b) <= Z.min (g + (k + 1) * 2 ^ e) (snd b) /\
  g + (k + 1) * 2 ^ e < 2 ^ 31.
Proof.
  intros g e n b k (Hg & He & Hn & _ & Hb & Hb1 & _ & H) Hk. destruct (H ltac:(lia)) as (H1 & H2 & H3).
  pose proof (pow_pos e ltac:(lia)) as P. assert (P' : 2 ^ e <= 2 ^ 15) by (apply Z.pow_le_mono_r; lia).
  set (d := 2 ^ e) in *.
  assert (A : (k + 1) * d <= n * d) by nia. assert (B : 0 <= k * d) by nia.
  assert (C : k * d <= (n - 1) * d) by nia.
  unfold precinct_axis. rewrite (shl_small 1 e) by (fold d; lia). fold d.
  assert (Kb : k < 2 ^ 31) by nia.
  rewrite Z.mul_1_l. rewrite (i32_id k), (i32_id (k * d)), (i32_id (g + k * d)) by (unfold in_i32; lia).
  rewrite (i32_id (g + k * d + d)) by (unfold in_i32; lia).
  replace (g + k * d + d) with (g + (k + 1) * d) by lia. split; [reflexivity |]. split; [| lia].
  assert (d <= (k + 1) * d) by nia. lia.
Qed.

Lemma blocks_spec : forall p ce lim, 0 <= ce <= 15 -> 0 <= fst p <= snd p -> snd p <= lim * 2 ^ ce -> lim * 2 ^ ce < 2 ^ 31 ->
  exists s e, blocks_axis p ce = (s * 2 ^ ce, e - s) /\ 0 <= s <= e /\ s * 2 ^ ce <= fst p < (s + 1) * 2 ^ ce /\
    ceil_of (snd p) (2 ^ ce) e /\ e * 2 ^ ce < 2 ^ 31.
Proof.
  intros [a b] ce lim Hce H0 H1 Hlim. cbn [fst snd] in *. unfold blocks_axis. cbn [fst snd].
  pose proof (pow_pos ce ltac:(lia)) as P. assert (P' : 2 ^ ce <= 2 ^ 15) by (apply Z.pow_le_mono_r; lia).
  pose proof (c29_floordivpow2 a ce ltac:(lia)) as F. cbn zeta in F. set (s := int_floordivpow2 a ce) in *.
  pose proof (c29_int_ceildivpow2 b ce ltac:(unfold in_i32; lia) ltac:(lia)) as C. set (e := int_ceildivpow2 b ce) in *.
  set (d := 2 ^ ce) in *. unfold ceil_of in *.
  assert (0 <= s) by nia. assert (e <= lim) by nia. assert (s <= e) by nia. assert (e * d < 2 ^ 31) by nia.
  exists s, e. rewrite (shl_small s ce), (shl_small e ce) by (fold d; nia). fold d.
  assert (0 <= s * d) by nia. assert (s * d <= e * d) by nia.
  rewrite (i32_id (e * d - s * d)) by (unfold in_i32; lia).
  replace (e * d - s * d) with ((e - s) * d) by lia. unfold d at 2. rewrite shr_exact by lia.
  rewrite u32_id by nia. repeat split; try lia.
Qed.

Lemma block_spec : forall p ce s e k, 0 <= ce <= 15 -> 0 <= s -> e * 2 ^ ce < 2 ^ 31 -> 0 <= k < e - s ->
  block_axis p (s * 2 ^ ce) ce k = (Z.max ((s + k) * 2 ^ ce) (fst p), Z.min ((s + k + 1) * 2 ^ ce) (snd p)).
Proof.
  intros p ce s e k Hce Hs He Hk. unfold block_axis.
  pose proof (pow_pos ce ltac:(lia)) as P. assert (P' : 2 ^ ce <= 2 ^ 15) by (apply Z.pow_le_mono_r; lia).
  set (d := 2 ^ ce) in *. rewrite (shl_small 1 ce) by (fold d; lia). fold d. rewrite Z.mul_1_l.
  assert (A : 0 <= k * d) by nia. assert (B : 0 <= s * d) by nia. assert (C : (s + k + 1) * d <= e * d) by nia.
  rewrite (i32_id k) by (unfold in_i32; nia). rewrite (i32_id (k * d)), (i32_id (s * d + k * d)) by (unfold in_i32; nia).
  rewrite (i32_id (s * d + k * d + d)) by (unfold in_i32; nia).
  f_equal; [f_equal | f_equal]; lia.
Qed.
