(** C64: decoding a window of a tile component gives what decoding the whole
    tile component gives there. *)

From Coq Require Import ZArith List Bool Lia.
From Verif Require Import I32 Ints Mem DwtModel DwtTile DwtProps SparseModel MathModel GeomModel SampleProofs WindowModel WindowSpec WindowAxis WindowProofs WindowTile.
Import ListNotations.
Local Open Scope Z_scope.

(** A coordinate of the tile component at a resolution with [k] above it. *)
Definition up (a k : Z) : Z := (a + 2 ^ k - 1) / 2 ^ k.
Definition extent_in (c win : Z * Z) : Prop := 0 <= fst c /\ fst c <= fst win <= snd win /\ snd win <= snd c /\ snd c < 2 ^ 31.

(** Any tile component of up to 2^30 rows and 2^32 samples at the resolution
    that is decoded, any window in it, any number of resolutions, blocks that
    hold the wanted coefficients of the plane [F]: unless memory runs out, the
    window buffer gets the window of the decoded plane [F] and nothing else
    changes. *)
Theorem c64_window : forall alloc comp win n numres bs F tmp buf data,
  extent_in (fst comp) (fst win) -> extent_in (snd comp) (snd win) -> 1 <= numres <= n -> n <= 33 ->
  let k := n - numres in
  let w := up (snd (fst comp)) k - up (fst (fst comp)) k in
  let h := up (snd (snd comp)) k - up (fst (snd comp)) k in
  w * h <= 2 ^ 32 -> h <= 2 ^ 30 ->
  Forall (block_ok w F comp n numres) bs -> cover comp win n numres bs ->
  let x0 := up (fst (fst win)) k in let x1 := up (snd (fst win)) k in
  let y0 := up (fst (snd win)) k in let y1 := up (snd (snd win)) k in
  match decode_partial_tile alloc comp win n numres bs buf data with
  | None => ~ (forall i, alloc i = true)
  | Some d =>
      (forall x y, x0 <= x < x1 -> y0 <= y < y1 ->
         d ((y - y0) * (x1 - x0) + (x - x0)) =
         fst (dwt_decode_tile w (lowest comp n numres) (F, tmp)) ((y - up (fst (snd comp)) k) * w + (x - up (fst (fst comp)) k))) /\
      (forall a, ~ 0 <= a < (y1 - y0) * (x1 - x0) -> d a = data a)
  end.
Proof.
  intros alloc comp win n numres bs F tmp buf data IX IY HN HN2 k w h HS HT HB HC x0 x1 y0 y1.
  assert (U : forall a, up a k = ceildivpow2 a (n - numres)) by (intros a; rewrite ceildivpow2_eq by lia; reflexivity).
  subst w h x0 x1 y0 y1. rewrite !U in *. clear U.
  pose proof (tile_good alloc comp win n numres IX IY HN HN2 HS HT F bs HB HC tmp buf data) as G.
  destruct (decode_partial_tile alloc comp win n numres bs buf data) as [d |]; [| exact G]. destruct G as [G1 G2]. split; [| exact G2].
  intros x y Hx Hy. rewrite G1 by assumption. unfold full, dwt_decode_tile, lowest.
  destruct (fair_at (fst comp) (fst win) (n - numres) IX ltac:(lia)) as (F1 & F2 & F3 & F4).
  set (f := fun r : nat => DwtModel.res_rect _ (n - 1 - Z.of_nat r)).
  replace (Z.to_nat numres) with (S (Z.to_nat (numres - 1))) by lia. cbn [seq map].
  destruct (Z.eqb_spec (ceildivpow2 (snd (fst comp)) (n - numres) - ceildivpow2 (fst (fst comp)) (n - numres)) 0) as [E | E]; [lia |]. reflexivity.
Qed.

(** The windows of every level lie in their sub-bands and the part of the
    resolution that is written lies in the resolution; every sample at most two
    away from the window is written. *)
Theorem c64_bounds : forall n resno c win, 1 <= resno < n -> n <= 33 -> extent_in c win ->
  let k := n - 1 - resno in let a := level_axis n resno c win in
  let lo := up (fst c) k in let hi := up (snd c) k in
  a_n a = hi - lo /\ a_sn a = sb 0 (n - resno) (snd c) - sb 0 (n - resno) (fst c) /\ a_dn a = sb 1 (n - resno) (snd c) - sb 1 (n - resno) (fst c) /\
  a_sn a + a_dn a = a_n a /\ a_cas a = lo mod 2 /\
  0 <= fst (a_low a) <= snd (a_low a) /\ snd (a_low a) <= a_sn a /\
  0 <= fst (a_high a) <= snd (a_high a) /\ snd (a_high a) <= a_dn a /\
  0 <= fst (a_out a) <= snd (a_out a) /\ snd (a_out a) <= a_n a /\
  (forall x, lo <= x < hi -> up (fst win) k - 2 <= x < up (snd win) k + 2 -> fst (a_out a) <= x - lo < snd (a_out a)).
Proof.
  intros n resno c win Hr Hn I k a lo hi. subst a. rewrite level_axis_eq by assumption. fold k.
  assert (U : forall a, up a k = ceildivpow2 a k) by (intros a; rewrite ceildivpow2_eq by lia; reflexivity).
  subst lo hi. rewrite !U. clear U.
  destruct (fair_at c win k I ltac:(lia)) as (F1 & F2 & F3 & F4).
  rewrite !sb_low, !sb_high by lia. replace (n - resno - 1) with k by lia. replace (n - resno) with (k + 1) by lia. rewrite !ceil_step by lia.
  set (A := ceildivpow2 (fst c) k) in *. set (B := ceildivpow2 (snd c) k) in *. set (P := ceildivpow2 (fst win) k) in *. set (Q := ceildivpow2 (snd win) k) in *.
  pose proof (ax_low A B P Q F2 F3) as (L1 & L2 & _). pose proof (ax_high A B P Q F2 F3) as (H1 & H2 & _). pose proof (ax_out A B P Q F2 F3) as (O1 & O2).
  pose proof (halves_sum A B) as HSum.
  split; [reflexivity |]. split; [reflexivity |]. split; [reflexivity |]. split; [exact HSum |]. split; [reflexivity |].
  split; [exact L1 |]. split; [exact L2 |]. split; [exact H1 |]. split; [exact H2 |]. split; [exact O1 |]. split; [exact O2 |].
  intros x Hx Hw. apply need_out; [exact F2 | exact F3 |]. unfold need. lia.
Qed.

(** ** Examples *)

(** The blocks of a plane, one for each sub-band, or only the part of each that
    is wanted for a window. *)
Definition bands_of (r : Z) : list (Z * Z) := if r =? 0 then [(0, 0)] else [(1, 0); (0, 1); (1, 1)].
Definition band_part (c win : Z * Z) (n r o : Z) : Z * Z :=
  let d := depth n r in
  (Z.max (sb o d (fst c)) (Z.min (sb o d (snd c)) (sb o d (fst win) - 2)), Z.min (sb o d (snd c)) (Z.max (sb o d (fst c)) (sb o d (snd win) + 2))).
Definition block_of (w : Z) (F : mem) (comp part : rect) (n r : Z) (b : Z * Z) : dblock :=
  let e := band_part (fst comp) (fst part) n r (fst b) in
  let f := band_part (snd comp) (snd part) n r (snd b) in
  mkDblock r (fst b + 2 * snd b) (e, f) (fun a =>
    F (place (snd comp) n r (snd b) (fst f + a / (snd e - fst e)) * w + place (fst comp) n r (fst b) (fst e + a mod (snd e - fst e)))).
Definition blocks_of (w : Z) (F : mem) (comp part : rect) (n numres : Z) : list dblock :=
  flat_map (fun r => map (block_of w F comp part n (Z.of_nat r)) (bands_of (Z.of_nat r))) (seq 0 (Z.to_nat numres)).

Lemma bands_bits : forall r o p, In (o, p) (bands_of r) <-> band_bits r o p.
Proof.
  intros r o p. unfold bands_of, band_bits. destruct (Z.eqb_spec r 0); cbn [In]; split.
  - intros [E | []]. injection E as <- <-. auto.
  - intros [-> ->]. left. reflexivity.
  - intros [E | [E | [E | []]]]; injection E as <- <-; lia.
  - intros ([-> | ->] & [-> | ->] & K); try contradiction; auto.
Qed.

Lemma sb_mono : forall o k a b, 0 <= k -> a <= b -> sb o k a <= sb o k b.
Proof. intros o k a b Hk H. unfold sb. assert (0 < 2 ^ k) by (apply Z.pow_pos_nonneg; lia). apply Z.div_le_mono; lia. Qed.

(** The hypotheses of [c64_window] can be met for every plane and window. *)
Theorem c64_met : forall w F comp win n numres, extent_in (fst comp) (fst win) -> extent_in (snd comp) (snd win) -> 1 <= numres <= n ->
  Forall (block_ok w F comp n numres) (blocks_of w F comp win n numres) /\ cover comp win n numres (blocks_of w F comp win n numres).
Proof.
  intros w F comp win n numres (X1 & X2 & X3 & X4) (Y1 & Y2 & Y3 & Y4) HN.
  assert (DP : forall r, 0 <= r < numres -> 0 <= depth n r) by (intros r Hr; unfold depth; destruct (r =? 0); lia). split.
  - apply Forall_forall. intros b Hb. apply in_flat_map in Hb. destruct Hb as (r & Hr & Hb). apply in_seq in Hr.
    apply in_map_iff in Hb. destruct Hb as ([o p] & <- & Hop). apply bands_bits in Hop.
    unfold block_ok, block_of. cbn [k_res k_band k_rect k_data fst snd]. exists o, p.
    pose proof (DP (Z.of_nat r) ltac:(lia)) as D.
    pose proof (sb_mono o (depth n (Z.of_nat r)) (fst (fst comp)) (snd (fst comp)) D ltac:(lia)) as M1. pose proof (sb_mono o (depth n (Z.of_nat r)) (fst (fst win)) (snd (fst win)) D ltac:(lia)) as M2.
    pose proof (sb_mono p (depth n (Z.of_nat r)) (fst (snd comp)) (snd (snd comp)) D ltac:(lia)) as M3. pose proof (sb_mono p (depth n (Z.of_nat r)) (fst (snd win)) (snd (snd win)) D ltac:(lia)) as M4.
    unfold band_part. cbn [fst snd]. split; [reflexivity |]. split; [lia |]. split; [exact Hop |]. split; [lia |]. split; [lia |]. split; [lia |]. split; [lia |].
    intros u v [Hu Hv]. cbn [fst snd] in Hu, Hv.
    match goal with |- F (place _ _ _ _ (?f0 + (?q * ?W + ?m) / _) * _ + place _ _ _ _ (?e0 + _)) = _ =>
      rewrite <- (Z.div_unique_pos (q * W + m) W q m) by lia; rewrite <- (Z.mod_unique_pos (q * W + m) W q m) by lia;
      replace (f0 + q) with v by lia; replace (e0 + m) with u by lia end. reflexivity.
  - intros r o p u v Hr Hb [Hu Hu'] [Hv Hv']. exists (block_of w F comp win n r (o, p)). split.
    + apply in_flat_map. exists (Z.to_nat r). split; [apply in_seq; lia |]. rewrite Z2Nat.id by lia. apply in_map, bands_bits, Hb.
    + split; [reflexivity |]. split; [reflexivity |]. unfold inside_rect, block_of, band_part. cbn [k_rect fst snd]. lia.
Qed.

Definition grid (m : mem) (a w x0 x1 y0 y1 : Z) : list Z :=
  map (fun i => let i := Z.of_nat i in m (a + (y0 + i / (x1 - x0)) * w + x0 + i mod (x1 - x0))) (seq 0 (Z.to_nat ((x1 - x0) * (y1 - y0)))).

(** A tile component of 19 by 15 samples at (3, 5) with four resolutions, the
    window [9, 16) x [8, 14): at full size and with one resolution dropped. *)
Definition ex_comp : rect := ((3, 22), (5, 20)).
Definition ex_win : rect := ((9, 16), (8, 14)).
Definition ex_plane : mem := fun a => (a * a * 7 + 13 * a) mod 41 - 20.
Example c64_example :
  let bs := blocks_of 19 ex_plane ex_comp ex_win 4 4 in
  let m := fst (dwt_decode_tile 19 (lowest ex_comp 4 4) (ex_plane, fun _ => 0)) in
  match decode_partial_tile (fun _ => true) ex_comp ex_win 4 4 bs (fun _ => 999) (fun _ => 5) with
  | Some d => grid d 0 7 0 7 0 6 = grid m 0 19 6 13 3 9 /\ d 42 = 5 /\ d (-1) = 5 /\ firstn 3 (grid d 0 7 0 7 0 6) <> [0; 0; 0]
  | None => False
  end /\
  let bs := blocks_of 9 ex_plane ex_comp ex_win 4 3 in
  let m := fst (dwt_decode_tile 9 (lowest ex_comp 4 3) (ex_plane, fun _ => 0)) in
  match decode_partial_tile (fun _ => true) ex_comp ex_win 4 3 bs (fun _ => 999) (fun _ => 5) with
  | Some d => grid d 0 3 0 3 0 3 = grid m 0 9 3 6 1 4
  | None => False
  end.
Proof. vm_compute. repeat split; discriminate. Qed.
(** Without the margin of two coefficients the result is wrong. *)
Example c64_margin :
  let bs := blocks_of 19 ex_plane ex_comp ((12, 13), (10, 11)) 4 4 in
  let m := fst (dwt_decode_tile 19 (lowest ex_comp 4 4) (ex_plane, fun _ => 0)) in
  match decode_partial_tile (fun _ => true) ex_comp ex_win 4 4 bs (fun _ => 999) (fun _ => 5) with
  | Some d => grid d 0 7 0 7 0 6 <> grid m 0 19 6 13 3 9
  | None => False
  end.
Proof. vm_compute. discriminate. Qed.

Print Assumptions c64_window.
Print Assumptions c64_bounds.
Print Assumptions c64_met.
