(** Where the code-blocks of a tile component lie. *)

From Coq Require Import ZArith List Lia Bool.
From Verif Require Import I32 Ints MathModel MathProps Mem GeomModel GeomProofs GeomCover GeomProps PiModel PiSpec TileModel.
Import ListNotations.
Local Open Scope Z_scope.

(** ** Axes *)

Lemma cdiv_ceil : forall a b, 0 < b -> ceil_of a b (cdiv a b).
Proof.
  intros a b Hb. unfold ceil_of, cdiv. pose proof (Z.div_mod (a + b - 1) b ltac:(lia)). pose proof (Z.mod_pos_bound (a + b - 1) b Hb). nia.
Qed.

Lemma ceil_stage : forall a d e p q, 0 < d -> 0 < e -> ceil_of a d p -> ceil_of p e q -> ceil_of a (d * e) q.
Proof.
  unfold ceil_of. intros a d e p q Hd He [A1 A2] [B1 B2]. split.
  - assert ((q - 1) * e <= p - 1) by lia. nia.
  - nia.
Qed.

Definition comp_of_tile (t0 t1 d : Z) (e : Z * Z) : Prop := ceil_of t0 d (fst e) /\ ceil_of t1 d (snd e) /\ extent e.

Lemma comp_axis_ceil : forall t0 t1 d, 0 <= t0 < t1 -> t1 < 2 ^ 31 -> 1 <= d <= 255 -> exists e, comp_axis (t0, t1) d = Some e /\ comp_of_tile t0 t1 d e.
Proof.
  intros t0 t1 d H0 H1 Hd. unfold comp_axis. cbn [fst snd]. rewrite i32_id by (unfold in_i32; lia).
  destruct (c29_int_ceildiv t0 d ltac:(lia) ltac:(lia)) as (a & -> & A). destruct (c29_int_ceildiv t1 d ltac:(lia) ltac:(lia)) as (b & -> & B).
  exists (a, b). split; [reflexivity |]. unfold comp_of_tile, extent. cbn [fst snd]. split; [exact A |]. split; [exact B |].
  pose proof (ceil_mono t0 t1 d a b ltac:(lia) ltac:(lia) A B). pose proof (ceil_bound31 t0 d a ltac:(lia) ltac:(lia) A). pose proof (ceil_bound31 t1 d b ltac:(lia) ltac:(lia) B). lia.
Qed.

Lemma spans_count : forall t0 t1 d e l pd start n, 1 <= d -> comp_of_tile t0 t1 d e -> 0 <= l <= 32 -> 0 <= pd <= 15 ->
  prec_axis (res_axis e l) pd = Some (start, n) -> n = spans t0 t1 (d * 2 ^ l) (2 ^ pd).
Proof.
  intros t0 t1 d e l pd start n Hd (C0 & C1 & X) Hl Hp E. destruct (res_axis_spec e l X Hl) as (R0 & R1 & Y).
  pose proof (pow_pos l ltac:(lia)) as P. pose proof (pow_pos pd ltac:(lia)) as Q.
  apply prec_axis_spec in E; [| exact Y | exact Hp]. destruct E as (s & z & _ & Hs & F & Z0 & _ & En & _).
  assert (D : 0 < d * 2 ^ l) by nia.
  assert (E0 : cdiv t0 (d * 2 ^ l) = fst (res_axis e l)) by (apply (ceil_unique t0 (d * 2 ^ l)); [exact D | apply cdiv_ceil; exact D | eapply ceil_stage; [lia | lia | exact C0 | exact R0]]).
  assert (E1 : cdiv t1 (d * 2 ^ l) = snd (res_axis e l)) by (apply (ceil_unique t1 (d * 2 ^ l)); [exact D | apply cdiv_ceil; exact D | eapply ceil_stage; [lia | lia | exact C1 | exact R1]]).
  unfold spans. rewrite E0, E1. rewrite En. destruct Y as [Y0 Y1].
  assert (Ez : cdiv (snd (res_axis e l)) (2 ^ pd) = z) by (apply (ceil_unique (snd (res_axis e l)) (2 ^ pd)); [lia | apply cdiv_ceil; lia | exact Z0]).
  assert (Es : fst (res_axis e l) / 2 ^ pd = s) by (symmetry; apply (Z.div_unique_pos _ _ s (fst (res_axis e l) - s * 2 ^ pd)); lia).
  rewrite Ez, Es. destruct (Z.eqb_spec (fst (res_axis e l)) (snd (res_axis e l))), (Z.ltb_spec (fst (res_axis e l)) (snd (res_axis e l))); lia.
Qed.

(** ** Precincts *)

Lemma tile_comp_some : forall T c, wf T -> 0 <= c < Z.of_nat (length (t_comps T)) ->
  exists comp, tile_comp T c = Some comp /\ comp_of_tile (t_x0 T) (t_x1 T) (sx (par T c)) (fst comp) /\ comp_of_tile (t_y0 T) (t_y1 T) (sy (par T c)) (snd comp).
Proof.
  intros T c (X0 & X1 & Y0 & Y1 & _ & _ & F & _) Hc.
  assert (I : In (par T c) (t_comps T)) by (apply nth_In; lia). rewrite Forall_forall in F. destruct (F _ I) as (Sx & Sy & _).
  unfold tile_comp. destruct (comp_axis_ceil (t_x0 T) (t_x1 T) (sx (par T c)) X0 X1 Sx) as (ax & -> & A). destruct (comp_axis_ceil (t_y0 T) (t_y1 T) (sy (par T c)) Y0 Y1 Sy) as (ay & -> & B).
  exists (ax, ay). split; [reflexivity |]. split; assumption.
Qed.

Lemma precincts_count : forall psize size p r b comp ps s e0 e1 f0 f1, 1 <= sx p -> 1 <= sy p -> comp_of_tile e0 e1 (sx p) (fst comp) -> comp_of_tile f0 f1 (sy p) (snd comp) ->
  1 <= nres p <= 33 -> 0 <= r < nres p -> 0 <= ex p r <= 15 -> 0 <= ey p r <= 15 -> 0 < psize ->
  band_precincts psize size (mkCoding (ex p r) (ey p r) (s_cbw s) (s_cbh s)) comp (nres p) r b = Some ps ->
  Z.of_nat (length ps) = spans e0 e1 (sx p * 2 ^ level p r) (2 ^ ex p r) * spans f0 f1 (sy p * 2 ^ level p r) (2 ^ ey p r).
Proof.
  intros psize size p r b comp ps s e0 e1 f0 f1 Hx Hy Cx Cy Hn Hr Px Py Hp E. unfold band_precincts, make_band, res_rect in E. cbn [fst snd GeomModel.pdx GeomModel.pdy] in E.
  fold (level p r) in E. assert (Hl : 0 <= level p r <= 32) by (unfold level; lia).
  destruct (prec_axis (res_axis (fst comp) (level p r)) (ex p r)) as [[s1 pw] |] eqn:E1; [| discriminate].
  destruct (prec_axis (res_axis (snd comp) (level p r)) (ey p r)) as [[s2 ph] |] eqn:E2; [| discriminate].
  pose proof (spans_count _ _ _ _ _ _ _ _ Hx Cx Hl Px E1) as W. pose proof (spans_count _ _ _ _ _ _ _ _ Hy Cy Hl Py E2) as H. rewrite <- W, <- H.
  destruct (res_axis_spec _ _ (proj2 (proj2 Cx)) Hl) as (_ & _ & Xx). destruct (res_axis_spec _ _ (proj2 (proj2 Cy)) Hl) as (_ & _ & Xy).
  apply prec_axis_spec in E1; [| exact Xx | exact Px]. destruct E1 as (_ & _ & _ & _ & _ & _ & _ & _ & N1 & _).
  apply prec_axis_spec in E2; [| exact Xy | exact Py]. destruct E2 as (_ & _ & _ & _ & _ & _ & _ & _ & N2 & _).
  assert (B : pw * ph < 2 ^ 32).
  { destruct (Z.eqb_spec pw 0) as [-> | N0]; [lia |]. cbn [negb andb] in E. destruct (Z.ltb_spec ((2 ^ 32 - 1) / pw) ph) as [| L]; [discriminate |].
    pose proof (Z.mul_div_le (2 ^ 32 - 1) pw ltac:(lia)). nia. }
  destruct (negb (pw =? 0) && ((2 ^ 32 - 1) / pw <? ph)); [discriminate |]. rewrite u32_id in E by nia.
  destruct ((2 ^ 32 - 1) / psize <? pw * ph); [discriminate |]. apply all_some_nth in E. destruct E as [L _]. rewrite L, map_length, upto_length. nia.
Qed.

(** ** Bands *)

(** Where coefficient [(x, y)] of a band is in the tile component: the lower
    resolution first, then the bands beside, below and diagonal to it. *)
Definition right_of (comp : rect) (n r b : Z) : Z := if Z.odd (orient r b) then width (fst (res_rect comp n (r - 1))) else 0.
Definition below (comp : rect) (n r b : Z) : Z := if 2 <=? orient r b then width (snd (res_rect comp n (r - 1))) else 0.
Definition home (comp : rect) (n r b x y : Z) : Z :=
  (y - fst (snd (band_rect comp n r b)) + below comp n r b) * width (fst comp) + (x - fst (fst (band_rect comp n r b)) + right_of comp n r b).

Lemma top_res : forall comp n, extent (fst comp) -> extent (snd comp) -> res_rect comp n (n - 1) = comp.
Proof.
  intros [[a b] [c d]] n Hx Hy. unfold res_rect, res_axis. cbn [fst snd] in *. replace (n - 1 - (n - 1)) with 0 by lia. unfold extent in *. cbn [fst snd] in *.
  assert (G : forall z, 0 <= z < 2 ^ 31 -> int_ceildivpow2 z 0 = z).
  { intros z Hz. pose proof (c29_int_ceildivpow2 z 0 ltac:(unfold in_i32; lia) ltac:(lia)) as X. unfold ceil_of in X. rewrite Z.pow_0_r in X. lia. }
  rewrite !G by lia. reflexivity.
Qed.

Lemma band_pos : forall comp n r b, extent (fst comp) -> extent (snd comp) -> 1 <= n <= 33 -> 0 <= r < n -> 0 <= b < (if r =? 0 then 1 else 3) ->
  0 <= width (fst (band_rect comp n r b)) /\ 0 <= width (snd (band_rect comp n r b)).
Proof.
  intros comp n r b Hx Hy Hn Hr Hb. destruct (c38_band_bounds comp n r b Hx Hy Hn Hr Hb) as (B1 & B2 & B3 & B4). unfold width.
  assert (P : 0 < (if r =? 0 then 2 ^ (n - 1 - r) else 2 ^ (n - 1 - r + 1))) by (destruct (r =? 0); apply Z.pow_pos_nonneg; lia).
  assert (fst (fst (band_rect comp n r b)) <= snd (fst (band_rect comp n r b))) by (eapply ceil_mono; [exact P | | exact B1 | exact B2]; destruct Hx; lia).
  assert (fst (snd (band_rect comp n r b)) <= snd (snd (band_rect comp n r b))) by (eapply ceil_mono; [exact P | | exact B3 | exact B4]; destruct Hy; lia).
  lia.
Qed.

Lemma res_grow : forall comp n, extent (fst comp) -> extent (snd comp) -> 1 <= n <= 33 -> forall r, 0 <= r < n ->
  0 <= width (fst (res_rect comp n r)) <= width (fst comp) /\ 0 <= width (snd (res_rect comp n r)) <= width (snd comp).
Proof.
  intros comp n Hx Hy Hn r Hr. replace r with (n - 1 - Z.of_nat (Z.to_nat (n - 1 - r))) by lia. assert (B : (Z.to_nat (n - 1 - r) < Z.to_nat n)%nat) by lia. revert B.
  generalize (Z.to_nat (n - 1 - r)). induction n0 as [| m IH]; intros B.
  - cbn [Z.of_nat]. rewrite Z.sub_0_r, top_res by assumption. unfold extent, width in *. lia.
  - specialize (IH ltac:(lia)). destruct (c38_bands_fill_resolution comp n (n - 1 - Z.of_nat m) Hx Hy Hn ltac:(lia)) as (W & H & _).
    replace (n - 1 - Z.of_nat m - 1) with (n - 1 - Z.of_nat (S m)) in W, H by lia. unfold width in *.
    destruct (res_axis_spec (fst comp) (n - 1 - (n - 1 - Z.of_nat (S m))) Hx ltac:(lia)) as (_ & _ & [E1 _]).
    destruct (res_axis_spec (snd comp) (n - 1 - (n - 1 - Z.of_nat (S m))) Hy ltac:(lia)) as (_ & _ & [E2 _]).
    destruct (band_pos comp n (n - 1 - Z.of_nat m) 0 Hx Hy Hn ltac:(lia) ltac:(destruct (_ =? _); lia)) as [G1 _].
    destruct (band_pos comp n (n - 1 - Z.of_nat m) 1 Hx Hy Hn ltac:(lia) ltac:(destruct (Z.eqb_spec (n - 1 - Z.of_nat m) 0); lia)) as [_ G2]. unfold width in G1, G2.
    unfold res_rect in *. cbn [fst snd] in *. lia.
Qed.

Lemma band_cases : forall r b, In b (band_numbers r) -> 0 <= b < (if r =? 0 then 1 else 3).
Proof. intros r b. unfold band_numbers. destruct (r =? 0); cbn [In]; lia. Qed.

(** A band lies inside its resolution, beside the lower one. *)
Lemma band_inside : forall comp n r b, extent (fst comp) -> extent (snd comp) -> 1 <= n <= 33 -> 0 <= r < n -> In b (band_numbers r) ->
  let w := width (fst (band_rect comp n r b)) in let h := width (snd (band_rect comp n r b)) in
  0 <= right_of comp n r b /\ right_of comp n r b + w <= width (fst (res_rect comp n r)) /\
  0 <= below comp n r b /\ below comp n r b + h <= width (snd (res_rect comp n r)).
Proof.
  intros comp n r b Hx Hy Hn Hr Hb. cbn zeta. unfold right_of, below, orient. unfold band_numbers in Hb. destruct (Z.eqb_spec r 0) as [-> | Z0].
  - cbn [Z.odd Z.leb Z.compare]. destruct Hb as [<- | []]. unfold band_rect, res_rect, band_offsets, band_axis, res_axis. cbn [Z.eqb fst snd]. lia.
  - destruct (c38_bands_fill_resolution comp n r Hx Hy Hn ltac:(lia)) as (W & H & A & B & C & D).
    destruct (res_grow comp n Hx Hy Hn (r - 1) ltac:(lia)) as [G1 G2]. unfold width in *.
    destruct (band_pos comp n r 0 Hx Hy Hn Hr ltac:(destruct (_ =? _); lia)) as [G3 _]. destruct (band_pos comp n r 1 Hx Hy Hn Hr ltac:(destruct (Z.eqb_spec r 0); lia)) as [_ G4]. unfold width in *.
    destruct Hb as [<- | [<- | [<- | []]]].
    + change (Z.odd (0 + 1)) with true. change (2 <=? 0 + 1) with false. cbn iota. rewrite A. lia.
    + change (Z.odd (1 + 1)) with false. change (2 <=? 1 + 1) with true. cbn iota. rewrite B. lia.
    + change (Z.odd (2 + 1)) with true. change (2 <=? 2 + 1) with true. cbn iota. rewrite C, D. lia.
Qed.

(** Every sample of the component is somebody's. *)
Lemma home_cover : forall comp n, extent (fst comp) -> extent (snd comp) -> 1 <= n <= 33 -> forall X Y, 0 <= X < width (fst comp) -> 0 <= Y < width (snd comp) ->
  exists r b x y, 0 <= r < n /\ In b (band_numbers r) /\ inside (band_rect comp n r b) x y /\ home comp n r b x y = Y * width (fst comp) + X.
Proof.
  intros comp n Hx Hy Hn.
  assert (G : forall m, (m < Z.to_nat n)%nat -> let r := Z.of_nat m in forall X Y, 0 <= X < width (fst (res_rect comp n r)) -> 0 <= Y < width (snd (res_rect comp n r)) ->
    exists r' b x y, 0 <= r' <= r /\ In b (band_numbers r') /\ inside (band_rect comp n r' b) x y /\ home comp n r' b x y = Y * width (fst comp) + X).
  { induction m as [| m IH]; intros B r X Y HX HY.
    - exists 0, 0, (fst (fst (band_rect comp n 0 0)) + X), (fst (snd (band_rect comp n 0 0)) + Y). split; [lia |]. split; [left; reflexivity |].
      change r with 0 in HX, HY. replace (res_rect comp n 0) with (band_rect comp n 0 0) in HX, HY by reflexivity.
      split; [unfold inside, GeomProofs.within, width in *; lia |]. unfold home, right_of, below, orient. cbn [Z.eqb Z.odd Z.leb Z.compare]. nia.
    - assert (R : r - 1 = Z.of_nat m) by lia. destruct (c38_bands_fill_resolution comp n r Hx Hy Hn ltac:(lia)) as (W & H & A & Bb & C & D).
      set (wl := width (fst (res_rect comp n (r - 1)))) in *. set (hl := width (snd (res_rect comp n (r - 1)))) in *.
      assert (Nr : band_numbers r = [0; 1; 2]) by (unfold band_numbers; destruct (Z.eqb_spec r 0); [lia | reflexivity]).
      assert (Or : forall b, orient r b = b + 1) by (intros b; unfold orient; destruct (Z.eqb_spec r 0); [lia | reflexivity]).
      destruct (Z_lt_ge_dec X wl) as [LX | LX], (Z_lt_ge_dec Y hl) as [LY | LY].
      + destruct (IH ltac:(lia) X Y) as (r' & b & x & y & P1 & P2); [rewrite <- R; fold wl; lia | rewrite <- R; fold hl; lia |]. exists r', b, x, y. split; [lia | exact P2].
      + exists r, 1, (fst (fst (band_rect comp n r 1)) + X), (fst (snd (band_rect comp n r 1)) + (Y - hl)). split; [lia |]. split; [rewrite Nr; cbn [In]; tauto |].
        split; [rewrite Bb in *; unfold inside, GeomProofs.within, width in *; rewrite Bb; subst wl hl; lia |].
        unfold home, right_of, below. rewrite Or. change (Z.odd (1 + 1)) with false. change (2 <=? 1 + 1) with true. cbn iota. fold hl. nia.
      + exists r, 0, (fst (fst (band_rect comp n r 0)) + (X - wl)), (fst (snd (band_rect comp n r 0)) + Y). split; [lia |]. split; [rewrite Nr; cbn [In]; tauto |].
        split; [unfold inside, GeomProofs.within, width in *; rewrite A; subst wl hl; lia |].
        unfold home, right_of, below. rewrite Or. change (Z.odd (0 + 1)) with true. change (2 <=? 0 + 1) with false. cbn iota. fold wl. nia.
      + exists r, 2, (fst (fst (band_rect comp n r 2)) + (X - wl)), (fst (snd (band_rect comp n r 2)) + (Y - hl)). split; [lia |]. split; [rewrite Nr; cbn [In]; tauto |].
        split; [unfold inside, GeomProofs.within, width in *; rewrite C, D; subst wl hl; lia |].
        unfold home, right_of, below. rewrite Or. change (Z.odd (2 + 1)) with true. change (2 <=? 2 + 1) with true. cbn iota. fold wl hl. nia. }
  intros X Y HX HY. destruct (G (Z.to_nat (n - 1)) ltac:(lia) X Y) as (r & b & x & y & P1 & P2); try (rewrite Z2Nat.id by lia; rewrite top_res by assumption; assumption).
  exists r, b, x, y. split; [lia | exact P2].
Qed.

(** ** Code-blocks *)

(** A code-block of a band with samples: size and place. *)
Lemma block_place : forall comp n r b psize size c ps i j blk, setting comp n r b psize size c -> In b (band_numbers r) ->
  band_precincts psize size c comp n r b = Some ps -> is_band_empty (band_rect comp n r b) = false -> block_at ps i j blk ->
  let w := width (fst blk) in let h := width (snd blk) in
  block_w blk = w /\ block_h blk = h /\ 1 <= w <= 2 ^ cblkw c /\ 1 <= h <= 2 ^ cblkh c /\
  corner comp n r (mkBand b (band_rect comp n r b) ps) blk =
    (fst (fst blk) - fst (fst (band_rect comp n r b)) + right_of comp n r b, fst (snd blk) - fst (snd (band_rect comp n r b)) + below comp n r b) /\
  0 <= fst (fst blk) - fst (fst (band_rect comp n r b)) + right_of comp n r b /\
  fst (fst blk) - fst (fst (band_rect comp n r b)) + right_of comp n r b + w <= width (fst comp) /\
  0 <= fst (snd blk) - fst (snd (band_rect comp n r b)) + below comp n r b /\
  fst (snd blk) - fst (snd (band_rect comp n r b)) + below comp n r b + h <= width (snd comp) /\
  forall x y, inside blk x y -> inside (band_rect comp n r b) x y.
Proof.
  intros comp n r b psize size c ps i j blk St Hb E Ne At. cbn zeta. pose proof (set_x _ _ _ _ _ _ _ St) as Hx. pose proof (set_y _ _ _ _ _ _ _ St) as Hy.
  pose proof (set_n _ _ _ _ _ _ _ St) as Hn. pose proof (set_res _ _ _ _ _ _ _ St) as Hr.
  destruct (band_inside comp n r b Hx Hy Hn Hr Hb) as (I1 & I2 & I3 & I4). cbn zeta in I2, I4. destruct (res_grow comp n Hx Hy Hn r Hr) as [G1 G2].
  destruct (c38_band_bounds comp n r b Hx Hy Hn Hr (set_band _ _ _ _ _ _ _ St)) as (B1 & B2 & B3 & B4).
  set (band := band_rect comp n r b) in *.
  assert (Lx : fst (fst band) < snd (fst band) /\ fst (snd band) < snd (snd band)).
  { unfold is_band_empty in Ne. apply orb_false_iff in Ne. destruct Ne as [N1 N2]. apply Z.eqb_neq in N1, N2.
    assert (fst (fst band) <= snd (fst band)) by (eapply ceil_mono; [| | exact B1 | exact B2]; [destruct (r =? 0); apply Z.pow_pos_nonneg; lia | destruct Hx; lia]).
    assert (fst (snd band) <= snd (snd band)) by (eapply ceil_mono; [| | exact B3 | exact B4]; [destruct (r =? 0); apply Z.pow_pos_nonneg; lia | destruct Hy; lia]). lia. }
  destruct Lx as [Lx Ly]. destruct (c38_block_size _ _ _ _ _ _ _ _ _ _ _ St E At Lx Ly) as [Sw Sh].
  destruct (c38_partition _ _ _ _ _ _ _ _ St E) as (_ & P2 & _). specialize (P2 i j blk).
  assert (Q1 : inside band (fst (fst blk)) (fst (snd blk))) by (apply P2; [exact At | unfold inside, GeomProofs.within; lia]).
  assert (Q2 : inside band (snd (fst blk) - 1) (snd (snd blk) - 1)) by (apply P2; [exact At | unfold inside, GeomProofs.within; lia]).
  unfold inside, GeomProofs.within in Q1, Q2. unfold width in *.
  assert (W31 : snd (fst comp) - fst (fst comp) < 2 ^ 31) by (destruct Hx; lia). assert (H31 : snd (snd comp) - fst (snd comp) < 2 ^ 31) by (destruct Hy; lia).
  assert (PW : 2 ^ cblkw c <= 2 ^ 10) by (apply Z.pow_le_mono_r; [lia | pose proof (set_cb _ _ _ _ _ _ _ St); lia]).
  assert (PH : 2 ^ cblkh c <= 2 ^ 10) by (apply Z.pow_le_mono_r; [lia | pose proof (set_cb _ _ _ _ _ _ _ St); lia]).
  assert (O : (Z.land (orient r b) 1 =? 0) = negb (Z.odd (orient r b)) /\ (Z.land (orient r b) 2 =? 0) = negb (2 <=? orient r b)).
  { unfold orient. unfold band_numbers in Hb. destruct (r =? 0); [split; reflexivity |]. destruct Hb as [<- | [<- | [<- | []]]]; split; reflexivity. }
  destruct O as [O1 O2].
  split; [unfold block_w, width; rewrite i32_id by (unfold in_i32; lia); apply u32_id; lia |].
  split; [unfold block_h, width; rewrite i32_id by (unfold in_i32; lia); apply u32_id; lia |].
  split; [lia |]. split; [lia |]. split.
  { unfold corner. cbn [b_no b_rect]. rewrite O1, O2. unfold right_of, below, width in *. fold band.
    rewrite (i32_id (fst (fst blk) - fst (fst band))), (i32_id (fst (snd blk) - fst (snd band))) by (unfold in_i32; lia).
    destruct (Z.odd (orient r b)), (2 <=? orient r b); cbn [negb]; f_equal; rewrite ?(i32_id (snd (fst (res_rect comp n (r - 1))) - fst (fst (res_rect comp n (r - 1))))), ?(i32_id (snd (snd (res_rect comp n (r - 1))) - fst (snd (res_rect comp n (r - 1))))) by (unfold in_i32; lia); apply i32_id; unfold in_i32; lia. }
  split; [lia |]. split; [lia |]. split; [lia |]. split; [lia |]. intros x y. apply P2, At.
Qed.

Lemma comp_w_is : forall comp, extent (fst comp) -> comp_w comp = width (fst comp).
Proof. intros comp [A B]. unfold comp_w, width. rewrite i32_id by (unfold in_i32; lia). apply u32_id. lia. Qed.
