(** Stages of decoding an area. *)

From Coq Require Import ZArith List Bool Arith Lia ZifyNat.
From Verif Require Import I32 Ints Mem MathModel MathProps DwtModel DwtProps DwtTile SampleModel SampleProofs SparseModel WindowModel WindowSpec WindowAxis WindowProofs WindowTile WindowProps.
From Verif Require Import MathModel GeomModel GeomProofs GeomCover GeomProps PiModel PiSpec T2PacketModel T2PacketSkip T1Model T1Props CblkModel PacketsModel TileModel TileGeom TileProofs TileProps AreaModel AreaPackets AreaGeom AreaJobs.
Import ListNotations.
Local Open Scope Z_scope.
Local Notation u32 := Ints.u32.
Local Notation rect := GeomModel.rect.
Local Notation within := GeomProofs.within.
Local Notation pl := PacketsModel.place.
Ltac Zify.zify_post_hook ::= idtac.

(** ** Windows *)

(** The area has a point in common with the tile; its coordinates fit 32 bits. *)
Definition overlaps (T : tile) (win : rect) : Prop :=
  (0 <= fst (fst win) < snd (fst win) /\ snd (fst win) < 2 ^ 32 /\ fst (fst win) < t_x1 T /\ t_x0 T < snd (fst win)) /\
  (0 <= fst (snd win) < snd (snd win) /\ snd (snd win) < 2 ^ 32 /\ fst (snd win) < t_y1 T /\ t_y0 T < snd (snd win)).

Lemma ceil_ge : forall a d p x, 0 < d -> ceil_of a d p -> p <= x <-> a <= x * d.
Proof. unfold ceil_of. intros a d p x Hd [A B]. split; intros H; nia. Qed.

Lemma window_axis_spec : forall t0 t1 d e w0 w1, 1 <= d <= 255 -> comp_of_tile t0 t1 d e -> 0 <= t0 < t1 -> 0 <= w0 < w1 -> w1 < 2 ^ 32 -> w0 < t1 -> t0 < w1 ->
  exists w, window_axis e (w0, w1) d = Some w /\ extent_in e w /\ forall x, within w x <-> within e x /\ w0 <= x * d < w1.
Proof.
  intros t0 t1 d e w0 w1 Hd (C0 & C1 & [X0 X1]) Ht Hw H32 H1 H2. unfold window_axis. cbn [fst snd].
  destruct (c29_uint_ceildiv w0 d ltac:(unfold is_u32; lia) ltac:(unfold is_u32; lia) ltac:(lia)) as (a & -> & A).
  destruct (c29_uint_ceildiv w1 d ltac:(unfold is_u32; lia) ltac:(unfold is_u32; lia) ltac:(lia)) as (b & -> & B).
  eexists. split; [reflexivity |]. rewrite !u32_id by lia. unfold extent_in, GeomProofs.within. cbn [fst snd].
  assert (M : forall s t p q, s <= t -> ceil_of s d p -> ceil_of t d q -> p <= q) by (intros s t p q Hst Hp Hq; exact (ceil_mono s t d p q ltac:(lia) Hst Hp Hq)).
  pose proof (M t0 t1 _ _ ltac:(lia) C0 C1). pose proof (M t0 w1 _ _ ltac:(lia) C0 B). pose proof (M w0 t1 _ _ ltac:(lia) A C1). pose proof (M w0 w1 _ _ ltac:(lia) A B).
  split; [lia |]. intros x. pose proof (ceil_ge w0 d a x ltac:(lia) A). pose proof (ceil_ge w1 d b x ltac:(lia) B). lia.
Qed.

Lemma window_spec : forall T win c comp, wf T -> overlaps T win -> 0 <= c < Z.of_nat (length (t_comps T)) -> tile_comp T c = Some comp ->
  exists w, comp_window T win c = Some w /\ extent_in (fst comp) (fst w) /\ extent_in (snd comp) (snd w) /\
    forall x y, inside w x y <-> inside comp x y /\ inside win (x * sx (par T c)) (y * sy (par T c)).
Proof.
  intros T win c comp HW [(A0 & A1 & A2 & A3) (B0 & B1 & B2 & B3)] Hc Ec. unfold comp_window. rewrite Ec.
  destruct (tile_comp_some T c HW Hc) as (comp' & E & X & Y). assert (comp' = comp) as -> by congruence.
  destruct HW as (W0 & _ & W1 & _ & _ & _ & F & _). rewrite Forall_forall in F. destruct (F (par T c) ltac:(apply nth_In; lia)) as (Sx & Sy & _ & _).
  destruct win as [[x0 x1] [y0 y1]]. cbn [fst snd] in *.
  destruct (window_axis_spec _ _ _ _ x0 x1 Sx X W0 A0 A1 A2 A3) as (wx & -> & EX & IX). destruct (window_axis_spec _ _ _ _ y0 y1 Sy Y W1 B0 B1 B2 B3) as (wy & -> & EY & IY).
  exists (wx, wy). split; [reflexivity |]. split; [exact EX |]. split; [exact EY |]. intros x y. unfold inside, GeomProofs.within. cbn [fst snd].
  specialize (IX x). specialize (IY y). unfold GeomProofs.within in IX, IY. tauto.
Qed.

(** ** Interest of a wanted coefficient *)

Lemma point_interest : forall comp w n r o p (R : rect) u v, extent_in (fst comp) (fst w) -> extent_in (snd comp) (snd w) -> 0 <= r < n -> n <= 33 -> band_bits r o p ->
  wanted (fst comp) (fst w) n r o u -> wanted (snd comp) (snd w) n r p v -> inside R u v ->
  0 <= fst (fst R) -> snd (fst R) < 2 ^ 31 -> 0 <= fst (snd R) -> snd (snd R) < 2 ^ 31 -> interest n r (o + 2 * p) w R = true.
Proof.
  intros comp w n r o p R u v (X1 & X2 & X3 & X4) (Y1 & Y2 & Y3 & Y4) Hr Hn B [_ Wu] [_ Wv] [Iu Iv] R1 R2 R3 R4. unfold GeomProofs.within in Iu, Iv.
  destruct (WindowTile.bits (fun _ => true) comp n n r o p B) as (Bo & Bp & Zo & Zp & L & H). unfold interest. rewrite L, H. apply andb_true_iff.
  split; apply axis_interest; try assumption; try lia.
Qed.

Lemma block_bounds : forall psize size T S c r comp b k j blk, wf T -> tile_comp T c = Some comp -> resolution T c r -> band_ok psize size T S c r comp b -> block_at (b_precs b) k j blk ->
  0 <= fst (fst blk) < snd (fst blk) /\ snd (fst blk) < 2 ^ 31 /\ 0 <= fst (snd blk) < snd (snd blk) /\ snd (snd blk) < 2 ^ 31 /\
  (forall u v, inside blk u v -> inside (band_rect comp (nres (par T c)) r (b_no b)) u v).
Proof.
  intros psize size T S c r comp b k j blk HW Ec Hr B At. destruct (comp_extents T c comp HW (proj1 Hr) Ec) as (X & Y & N).
  destruct (block_place _ _ _ _ _ _ _ _ _ _ _ (bo_set _ _ _ _ _ _ _ _ B) (bo_in _ _ _ _ _ _ _ _ B) (bo_precs _ _ _ _ _ _ _ _ B) (bo_some _ _ _ _ _ _ _ _ B) At) as (_ & _ & W & H & _ & _ & _ & _ & _ & Ins).
  pose proof (Ins (fst (fst blk)) (fst (snd blk)) ltac:(unfold inside, GeomProofs.within, width in *; lia)) as P. pose proof (Ins (snd (fst blk) - 1) (snd (snd blk) - 1) ltac:(unfold inside, GeomProofs.within, width in *; lia)) as Q.
  rewrite (band_rect_sb comp _ r (b_no b) X Y N (proj2 Hr) (bo_in _ _ _ _ _ _ _ _ B)) in P, Q. destruct (ori_bits r (b_no b) (bo_in _ _ _ _ _ _ _ _ B)) as [BB _].
  destruct (WindowTile.bits (fun _ => true) comp r r r _ _ BB) as (Bo & Bp & Zo & Zp & _). set (n := nres (par T c)) in *. pose proof (depth_pos n r (proj2 Hr)) as DP.
  destruct X as [X1 X2], Y as [Y1 Y2].
  pose proof (sb_range (ori_x r (b_no b)) (depth n r) (fst (fst comp)) Bo (depth_bits n r _ (proj2 Hr) Bo Zo) DP ltac:(lia)). pose proof (sb_range (ori_x r (b_no b)) (depth n r) (snd (fst comp)) Bo (depth_bits n r _ (proj2 Hr) Bo Zo) DP ltac:(lia)).
  pose proof (sb_range (ori_y r (b_no b)) (depth n r) (fst (snd comp)) Bp (depth_bits n r _ (proj2 Hr) Bp Zp) DP ltac:(lia)). pose proof (sb_range (ori_y r (b_no b)) (depth n r) (snd (snd comp)) Bp (depth_bits n r _ (proj2 Hr) Bp Zp) DP ltac:(lia)).
  unfold inside, GeomProofs.within, width in P, Q, W, H. cbn [fst snd] in P, Q. split; [lia |]. split; [lia |]. split; [lia |]. split; [lia | exact Ins].
Qed.

Lemma precinct_bounds : forall psize size T S c r comp b k q, wf T -> tile_comp T c = Some comp -> resolution T c r -> band_ok psize size T S c r comp b -> nth_error (b_precs b) k = Some q ->
  0 <= fst (fst (prect q)) /\ snd (fst (prect q)) < 2 ^ 31 /\ 0 <= fst (snd (prect q)) /\ snd (snd (prect q)) < 2 ^ 31.
Proof.
  intros psize size T S c r comp b k q HW Ec Hr B Hq. destruct (comp_extents T c comp HW (proj1 Hr) Ec) as (X & Y & N).
  pose proof (precinct_in_band _ _ _ _ _ _ _ _ _ _ B Hq) as P.
  rewrite (band_rect_sb comp _ r (b_no b) X Y N (proj2 Hr) (bo_in _ _ _ _ _ _ _ _ B)) in P. destruct (ori_bits r (b_no b) (bo_in _ _ _ _ _ _ _ _ B)) as [BB _].
  destruct (WindowTile.bits (fun _ => true) comp r r r _ _ BB) as (Bo & Bp & Zo & Zp & _). set (n := nres (par T c)) in *. pose proof (depth_pos n r (proj2 Hr)) as DP.
  destruct X as [X1 X2], Y as [Y1 Y2].
  pose proof (sb_range (ori_x r (b_no b)) (depth n r) (fst (fst comp)) Bo (depth_bits n r _ (proj2 Hr) Bo Zo) DP ltac:(lia)). pose proof (sb_range (ori_x r (b_no b)) (depth n r) (snd (fst comp)) Bo (depth_bits n r _ (proj2 Hr) Bo Zo) DP ltac:(lia)).
  pose proof (sb_range (ori_y r (b_no b)) (depth n r) (fst (snd comp)) Bp (depth_bits n r _ (proj2 Hr) Bp Zp) DP ltac:(lia)). pose proof (sb_range (ori_y r (b_no b)) (depth n r) (snd (snd comp)) Bp (depth_bits n r _ (proj2 Hr) Bp Zp) DP ltac:(lia)).
  cbn [fst snd] in P. lia.
Qed.

(** ** Resolutions *)

Lemma rev_seq : forall n, rev (seq 0 n) = map (fun r => (n - 1 - r)%nat) (seq 0 n).
Proof.
  induction n as [| n IH]; [reflexivity |]. rewrite seq_S at 1. cbn [Nat.add]. rewrite rev_app_distr. cbn [rev app]. rewrite IH. cbn [seq map]. f_equal; [lia |].
  rewrite <- seq_shift, map_map. apply map_ext. intros a. lia.
Qed.
Lemma lowest_all : forall comp n, 1 <= n -> lowest comp n n = resolutions (as_rect comp) (Z.to_nat n).
Proof.
  intros comp n Hn. unfold lowest, resolutions. rewrite rev_seq, map_map. apply map_ext_in. intros r Hr. apply in_seq in Hr. f_equal. lia.
Qed.
Lemma resolutions_len : forall t n, length (resolutions t n) = n.
Proof. intros t n. unfold resolutions. rewrite map_length, rev_length, seq_length. reflexivity. Qed.
Lemma win_axis_top : forall w n, 0 <= fst w < 2 ^ 32 -> 0 <= snd w < 2 ^ 32 -> 1 <= n <= 33 -> win_axis w n (n - 1) = w.
Proof.
  intros [a b] n Ha Hb Hn. cbn [fst snd] in *. unfold win_axis. cbn [fst snd]. rewrite (u32_id (n - 1)) by lia. rewrite Z.sub_diag. change (u32 0) with 0. rewrite !uint_ceil by lia. rewrite !ceildivpow2_eq by lia.
  rewrite Z.pow_0_r, !Z.div_1_r. f_equal; lia.
Qed.
