(** The blocks, the levels and the read-out of a window of a tile component. *)

From Coq Require Import ZArith List Bool Lia.
From Verif Require Import I32 Ints Mem DwtModel DwtSpec DwtProofs DwtTile DwtProps SparseModel SparseProofs SparseProps MathModel GeomModel SampleProofs WindowModel WindowSpec WindowLine WindowAxis WindowProofs.
Import ListNotations.
Local Open Scope Z_scope.
Local Notation u32 := Ints.u32.
Local Notation cl := ceildivpow2.
Ltac Zify.zify_post_hook ::= idtac.

(** ** Coordinates *)

Lemma sb_low : forall nb a, 0 <= nb -> sb 0 nb a = cl a nb.
Proof. intros nb a H. unfold sb. rewrite ceildivpow2_eq by exact H. f_equal. lia. Qed.
Lemma sb_high : forall nb a, 1 <= nb -> sb 1 nb a = cl a (nb - 1) / 2.
Proof.
  intros nb a H. unfold sb. rewrite Z.mul_1_r. rewrite <- (floor_step a (nb - 1)) by lia. replace (nb - 1 + 1) with nb by lia. reflexivity.
Qed.

Lemma cl_step : forall a l, 0 <= l -> cl a (l + 1) = (cl a l + 1) / 2.
Proof. exact ceil_step. Qed.

Lemma half_le : forall A B, A <= B -> A / 2 <= B / 2.
Proof. intros. apply Z.div_le_mono; lia. Qed.

Lemma halves_sum : forall A B, (B + 1) / 2 - (A + 1) / 2 + (B / 2 - A / 2) = B - A.
Proof.
  intros A B. assert (H : forall x, (x + 1) / 2 + x / 2 = x); [| pose proof (H A); pose proof (H B); lia].
  intros x. pose proof (Z.div_mod x 2 ltac:(lia)). pose proof (Z.mod_pos_bound x 2 ltac:(lia)).
  pose proof (Z.div_mod (x + 1) 2 ltac:(lia)). pose proof (Z.mod_pos_bound (x + 1) 2 ltac:(lia)). lia.
Qed.

Lemma shrink_nat : forall a b l d, 0 <= l -> a <= b -> cl b (l + Z.of_nat d) - cl a (l + Z.of_nat d) <= cl b l - cl a l.
Proof.
  intros a b l d Hl Hab. induction d as [| d IH]; [rewrite Z.add_0_r; lia |].
  replace (l + Z.of_nat (S d)) with (l + Z.of_nat d + 1) by lia. rewrite !cl_step by lia.
  pose proof (ceil_le a b (l + Z.of_nat d) ltac:(lia) Hab) as G. pose proof (halves_sum (cl a (l + Z.of_nat d)) (cl b (l + Z.of_nat d))).
  pose proof (half_le _ _ G). lia.
Qed.
Lemma shrink : forall a b l k, 0 <= l <= k -> a <= b -> 0 <= cl b k - cl a k <= cl b l - cl a l.
Proof.
  intros a b l k H Hab. pose proof (ceil_le a b k ltac:(lia) Hab). pose proof (shrink_nat a b l (Z.to_nat (k - l)) ltac:(lia) Hab) as G.
  replace (l + Z.of_nat (Z.to_nat (k - l))) with k in G by lia. lia.
Qed.

Lemma fair_at : forall c win l, in_win c win -> 0 <= l -> fair (cl (fst c) l) (cl (snd c) l) (cl (fst win) l) (cl (snd win) l).
Proof.
  intros c win l (I1 & I2 & I3 & I4) Hl. unfold fair.
  pose proof (ceil_range (fst c) l Hl I1). pose proof (ceil_range (snd c) l Hl ltac:(lia)).
  pose proof (ceil_le (fst c) (fst win) l Hl ltac:(lia)). pose proof (ceil_le (fst win) (snd win) l Hl ltac:(lia)). pose proof (ceil_le (snd win) (snd c) l Hl ltac:(lia)). lia.
Qed.

(** Bands tile the resolution: [lo_n] low-pass coefficients, then the others. *)
Lemma band_extent : forall c n r o, 0 <= fst c <= snd c -> 0 <= r < n -> (o = 0 \/ o = 1) -> (r = 0 -> o = 0) ->
  let A := cl (fst c) (n - 1 - r) in let B := cl (snd c) (n - 1 - r) in
  (if r =? 0 then sb o (depth n r) (fst c) = A /\ sb o (depth n r) (snd c) = B
   else sb o (depth n r) (fst c) = (if o =? 0 then (A + 1) / 2 else A / 2) /\ sb o (depth n r) (snd c) = (if o =? 0 then (B + 1) / 2 else B / 2)) /\
  (r <> 0 -> sb 0 (depth n r) (fst c) = (A + 1) / 2 /\ sb 0 (depth n r) (snd c) = (B + 1) / 2).
Proof.
  intros c n r o Hc Hr Ho Hz A B. unfold depth. subst A B. split.
  - destruct (Z.eqb_spec r 0) as [-> | Ne].
    + rewrite (Hz eq_refl), !sb_low by lia. rewrite Z.sub_0_r. auto.
    + destruct Ho as [-> | ->]; cbn [Z.eqb Pos.eqb].
      * rewrite !sb_low by lia. rewrite <- !cl_step by lia. replace (n - 1 - r + 1) with (n - r) by lia. auto.
      * rewrite !sb_high by lia. replace (n - r - 1) with (n - 1 - r) by lia. auto.
  - intros Ne. destruct (Z.eqb_spec r 0); [contradiction |]. rewrite !sb_low by lia. rewrite <- !cl_step by lia. replace (n - 1 - r + 1) with (n - r) by lia. auto.
Qed.

Lemma band_start_eq : forall c n r o, 0 <= fst c <= snd c -> snd c < 2 ^ 31 -> n <= 33 -> 0 <= r < n -> (o = 0 \/ o = 1) -> (r = 0 -> o = 0) ->
  band_start c n r o = sb o (depth n r) (fst c).
Proof.
  intros c n r o Hc Hb Hn Hr Ho Hz. destruct (band_extent c n r o Hc Hr Ho Hz) as [E _]. cbn zeta in E. unfold band_start.
  destruct (Z.eqb_spec r 0) as [-> | Ne].
  - destruct E as [-> _]. unfold band_axis. cbn [Z.eqb fst]. rewrite ceil_same by lia. reflexivity.
  - destruct E as [-> _]. destruct Ho as [-> | ->]; cbn [Z.eqb Pos.eqb]; [apply band_low | apply band_high]; lia.
Qed.

(** Positions of coefficients in the plane. *)
Lemma place_range : forall c n r o u, 0 <= fst c <= snd c -> 0 <= r < n -> (o = 0 \/ o = 1) -> (r = 0 -> o = 0) ->
  sb o (depth n r) (fst c) <= u <= sb o (depth n r) (snd c) ->
  0 <= place c n r o u <= cl (snd c) (n - 1 - r) - cl (fst c) (n - 1 - r).
Proof.
  intros c n r o u Hc Hr Ho Hz Hu. destruct (band_extent c n r o Hc Hr Ho Hz) as [E E']. cbn zeta in E, E'. unfold place.
  pose proof (ceil_le (fst c) (snd c) (n - 1 - r) ltac:(lia) ltac:(lia)) as LE. set (A := cl (fst c) (n - 1 - r)) in *. set (B := cl (snd c) (n - 1 - r)) in *.
  pose proof (halves_sum A B). pose proof (half_le A B LE). pose proof (half_le (A + 1) (B + 1) ltac:(lia)).
  destruct (Z.eqb_spec r 0) as [-> | Ne].
  - rewrite (Hz eq_refl) in *. cbn [Z.eqb Pos.eqb]. lia.
  - destruct (E' Ne) as [E1 E2]. destruct Ho as [-> | ->]; cbn [Z.eqb Pos.eqb] in *; lia.
Qed.

Lemma block_axis_at_eq : forall c n r o u, 0 <= fst c <= snd c -> snd c < 2 ^ 31 -> n <= 33 -> 0 <= r < n -> (o = 0 \/ o = 1) -> (r = 0 -> o = 0) ->
  sb o (depth n r) (fst c) <= u <= sb o (depth n r) (snd c) -> block_axis_at c n r o u = place c n r o u.
Proof.
  intros c n r o u Hc Hb Hn Hr Ho Hz Hu. pose proof (place_range c n r o u Hc Hr Ho Hz Hu) as PR.
  destruct (band_extent c n r o Hc Hr Ho Hz) as [E E']. cbn zeta in E, E'.
  unfold block_axis_at. rewrite band_start_eq by assumption.
  pose proof (ceil_range (fst c) (n - 1 - r) ltac:(lia) ltac:(lia)) as R1. pose proof (ceil_range (snd c) (n - 1 - r) ltac:(lia) ltac:(lia)) as R2.
  pose proof (ceil_le (fst c) (snd c) (n - 1 - r) ltac:(lia) ltac:(lia)) as LE.
  unfold place in *. set (s := sb o (depth n r) (fst c)) in *.
  destruct Ho as [-> | ->]; cbn [Z.eqb Pos.eqb] in *.
  - rewrite Z.add_0_r in *. rewrite i32_id by (unfold in_i32; lia). rewrite u32_id by lia. reflexivity.
  - assert (Ne : r <> 0) by (intros K; specialize (Hz K); discriminate). destruct (E' Ne) as [E1 E2].
    pose proof (half_le (cl (fst c) (n - 1 - r) + 1) (cl (snd c) (n - 1 - r) + 1) ltac:(lia)).
    rewrite i32_id by (unfold in_i32; lia). rewrite (u32_id (u - s)) by lia.
    unfold size_of, res_axis. cbn [fst snd]. replace (n - 1 - (r - 1)) with (n - 1 - r + 1) by lia.
    rewrite <- !ceil_same by lia. rewrite !cl_step by lia. rewrite <- E1, <- E2.
    rewrite (i32_id (_ - sb 0 _ _)) by (unfold in_i32; lia). rewrite (u32_id (_ - sb 0 _ _)) by lia. rewrite u32_id by lia. reflexivity.
Qed.

(** ** Blocks *)

Section Tile.
  Variables (alloc : Z -> bool) (comp win : rect) (n numres : Z).
  Hypothesis (IX : in_win (fst comp) (fst win)) (IY : in_win (snd comp) (snd win)) (HN : 1 <= numres <= n) (HN2 : n <= 33).
  Let xa := fst (fst comp). Let xb := snd (fst comp). Let ya := fst (snd comp). Let yb := snd (snd comp).
  Let w := cl xb (n - numres) - cl xa (n - numres).
  Let h := cl yb (n - numres) - cl ya (n - numres).
  Hypothesis (HS : w * h <= 2 ^ 32) (HT : h <= 2 ^ 30).
  Variables (F : mem) (bs : list dblock).
  Hypothesis (HB : Forall (block_ok w F comp n numres) bs) (HC : cover comp win n numres bs).

  Lemma sizes : 0 <= w < 2 ^ 31 /\ 0 <= h < 2 ^ 31 /\ xa <= xb /\ ya <= yb.
  Proof.
    destruct IX as (X1 & X2 & X3 & X4). destruct IY as (Y1 & Y2 & Y3 & Y4). fold xa xb in X1, X2, X3, X4. fold ya yb in Y1, Y2, Y3, Y4.
    pose proof (ceil_diff xa xb (n - numres) ltac:(lia) ltac:(lia)). pose proof (ceil_diff ya yb (n - numres) ltac:(lia) ltac:(lia)). unfold w, h. lia.
  Qed.

  (** The plane cells of a block. *)
  Definition cell_of (b : dblock) (x y : Z) : Prop := exists o p u v, k_band b = o + 2 * p /\ band_bits (k_res b) o p /\ inside_rect (k_rect b) u v /\
    x = place (fst comp) n (k_res b) o u /\ y = place (snd comp) n (k_res b) p v.

  Lemma bits : forall r o p, band_bits r o p -> (o = 0 \/ o = 1) /\ (p = 0 \/ p = 1) /\ (r = 0 -> o = 0) /\ (r = 0 -> p = 0) /\
    Z.land (o + 2 * p) 1 = o /\ Z.shiftr (o + 2 * p) 1 = p.
  Proof.
    intros r o p H. unfold band_bits in H. destruct (Z.eqb_spec r 0).
    - destruct H as [-> ->]. repeat split; auto.
    - destruct H as ([-> | ->] & [-> | ->] & K); repeat split; auto; try lia; contradiction.
  Qed.

  Lemma put_block_spec : forall b sa, dims sa w h -> block_ok w F comp n numres b ->
    match put_block alloc comp n b sa with
    | None => ~ (forall i, alloc i = true)
    | Some sa' => dims sa' w h /\
        forall x y, 0 <= x < w -> 0 <= y < h -> (view sa' x y = view sa x y \/ view sa' x y = F (y * w + x)) /\ (cell_of b x y -> view sa' x y = F (y * w + x))
    end.
  Proof.
    intros b sa (Hwf & Ew & Eh) Hb. unfold block_ok in Hb. destruct Hb as (o & p & Ek & Hr & Hbits & X1 & X2 & Y1 & Y2 & HD).
    destruct (bits _ _ _ Hbits) as (Ho & Hp & Zo & Zp & L1 & L2). unfold put_block. rewrite Ek, L1, L2.
    destruct sizes as (SW & SH & Sx & Sy). pose proof IX as (IX1 & IX2 & IX3 & IX4). pose proof IY as (IY1 & IY2 & IY3 & IY4).
    set (r := k_res b) in *. set (e := fst (k_rect b)) in *. set (f := snd (k_rect b)) in *.
    rewrite !block_axis_at_eq by (assumption || lia).
    assert (PX : forall u, sb o (depth n r) (fst (fst comp)) <= u <= sb o (depth n r) (snd (fst comp)) -> 0 <= place (fst comp) n r o u <= w).
    { intros u Hu. pose proof (place_range (fst comp) n r o u ltac:(lia) ltac:(lia) Ho Zo Hu). pose proof (shrink xa xb (n - numres) (n - 1 - r) ltac:(lia) Sx). fold xa xb in H. fold w in H0. lia. }
    assert (PY : forall u, sb p (depth n r) (fst (snd comp)) <= u <= sb p (depth n r) (snd (snd comp)) -> 0 <= place (snd comp) n r p u <= h).
    { intros u Hu. pose proof (place_range (snd comp) n r p u ltac:(lia) ltac:(lia) Hp Zp Hu). pose proof (shrink ya yb (n - numres) (n - 1 - r) ltac:(lia) Sy). fold ya yb in H. fold h in H0. lia. }
    assert (DX : forall u t, place (fst comp) n r o u - place (fst comp) n r o t = u - t) by (intros; unfold place; lia).
    assert (DY : forall u t, place (snd comp) n r p u - place (snd comp) n r p t = u - t) by (intros; unfold place; lia).
    pose proof (PX (fst e) ltac:(lia)) as PX0. pose proof (PX (snd e) ltac:(lia)) as PX1. pose proof (PY (fst f) ltac:(lia)) as PY0. pose proof (PY (snd f) ltac:(lia)) as PY1.
    pose proof (DX (snd e) (fst e)) as DX0. pose proof (DY (snd f) (fst f)) as DY0.
    unfold size_of. rewrite !i32_id by (unfold in_i32; lia). rewrite !(u32_id (snd _ - fst _)) by lia. rewrite !u32_id by lia.
    pose proof (store_spec alloc sa (place (fst comp) n r o (fst e)) (place (snd comp) n r p (fst f))
       (place (fst comp) n r o (fst e) + (snd e - fst e)) (place (snd comp) n r p (fst f) + (snd f - fst f)) 0 1 (snd e - fst e) (k_data b) Hwf
       ltac:(lia) ltac:(lia) ltac:(lia) ltac:(lia) ltac:(lia) ltac:(lia)) as ST.
    destruct (store alloc sa _ _ _ _ 0 1 (snd e - fst e) (k_data b)) as [sa' |]; [| exact ST]. destruct ST as (T1 & T2 & T3 & T4).
    split; [split; [exact T1 | split; congruence] |]. intros x y Hx Hy. rewrite <- Ew in Hx. rewrite <- Eh in Hy. destruct (T4 x y Hx Hy) as [T5 T6].
    assert (IN : place (fst comp) n r o (fst e) <= x < place (fst comp) n r o (fst e) + (snd e - fst e) /\ place (snd comp) n r p (fst f) <= y < place (snd comp) n r p (fst f) + (snd f - fst f) -> view sa' x y = F (y * w + x)).
    { intros [I1 I2]. rewrite T6 by (split; assumption).
      set (u := fst e + (x - place (fst comp) n r o (fst e))). set (v := fst f + (y - place (snd comp) n r p (fst f))).
      assert (EX : place (fst comp) n r o u = x) by (pose proof (DX u (fst e)) as K; clear - K; subst u; lia).
      assert (EY : place (snd comp) n r p v = y) by (pose proof (DY v (fst f)) as K; clear - K; subst v; lia).
      rewrite <- EX at 2. rewrite <- EY at 2. rewrite <- HD; [f_equal; clear; subst u v; lia |]. unfold inside_rect. cbn [fst snd]. clear - I1 I2. subst u v. lia. }
    split.
    - destruct (Z_le_dec (place (fst comp) n r o (fst e)) x), (Z_lt_dec x (place (fst comp) n r o (fst e) + (snd e - fst e))),
        (Z_le_dec (place (snd comp) n r p (fst f)) y), (Z_lt_dec y (place (snd comp) n r p (fst f) + (snd f - fst f)));
        first [right; apply IN; split; split; assumption | left; apply T5; intros [[? ?] [? ?]]; contradiction].
    - intros (o' & p' & u & v & K1 & K2 & K3 & K4 & K5). destruct (bits _ _ _ K2) as (_ & _ & _ & _ & L1' & L2').
      rewrite Ek in K1. rewrite <- K1 in L1', L2'. assert (o' = o) by congruence. assert (p' = p) by congruence. clear L1' L2' K1. subst o' p'.
      apply IN. unfold inside_rect in K3. fold e f in K3. fold r in K4, K5. pose proof (DX u (fst e)) as Q1. pose proof (DY v (fst f)) as Q2.
      rewrite <- K4 in Q1. rewrite <- K5 in Q2. clear - K3 Q1 Q2. lia.
  Qed.

  Lemma blocks_spec : forall l sa, dims sa w h -> Forall (block_ok w F comp n numres) l ->
    match fold_left (fun sa b => bind sa (put_block alloc comp n b)) l (Some sa) with
    | None => ~ (forall i, alloc i = true)
    | Some sa' => dims sa' w h /\
        forall x y, 0 <= x < w -> 0 <= y < h -> (view sa' x y = view sa x y \/ view sa' x y = F (y * w + x)) /\ (forall b, In b l -> cell_of b x y -> view sa' x y = F (y * w + x))
    end.
  Proof.
    induction l as [| b l IH]; intros sa Hd Hl; cbn [fold_left bind].
    - split; [exact Hd |]. intros x y _ _. split; [left; reflexivity | intros b []].
    - pose proof (put_block_spec b sa Hd (Forall_inv Hl)) as PB. destruct (put_block alloc comp n b sa) as [sa1 |].
      + destruct PB as [P1 P2]. specialize (IH sa1 P1 (Forall_inv_tail Hl)).
        destruct (fold_left (fun sa b => bind sa (put_block alloc comp n b)) l (Some sa1)) as [sa' |]; [| exact IH].
        destruct IH as [I1 I2]. split; [exact I1 |]. intros x y Hx Hy. destruct (I2 x y Hx Hy) as [J1 J2]. destruct (P2 x y Hx Hy) as [Q1 Q2]. split.
        * destruct J1 as [-> | ->]; [exact Q1 | right; reflexivity].
        * intros b' [<- | Hin] Hc; [| apply (J2 b' Hin Hc)]. destruct J1 as [-> | ->]; [apply Q2, Hc | reflexivity].
      + assert (E : fold_left (fun sa b => bind sa (put_block alloc comp n b)) l None = None) by (clear; induction l; [reflexivity | exact IHl]). rewrite E. exact PB.
  Qed.

  (** After the blocks are put, wanted cells hold their coefficients. *)
  Definition filled (sa : sparse) : Prop := forall r o p u v, 0 <= r < numres -> band_bits r o p ->
    wanted (fst comp) (fst win) n r o u -> wanted (snd comp) (snd win) n r p v ->
    view sa (place (fst comp) n r o u) (place (snd comp) n r p v) = F (place (snd comp) n r p v * w + place (fst comp) n r o u).

  Lemma create_some : 1 <= w -> 1 <= h -> create w h (Z.min w 64) (Z.min h 64) <> None.
  Proof.
    intros W1 H1 E. destruct sizes as (SW & SH & _).
    destruct (c26_create w h (Z.min w 64) (Z.min h 64) ltac:(unfold is_u32; lia) ltac:(unfold is_u32; lia) ltac:(unfold is_u32; lia) ltac:(unfold is_u32; lia)) as [[C _] _].
    assert (K : forall z, 1 <= z -> (z + Z.min z 64 - 1) / Z.min z 64 = 1 \/ (64 <= z /\ 0 <= 32 * ((z + Z.min z 64 - 1) / Z.min z 64) <= z)).
    { intros z Hz. destruct (Z_lt_ge_dec z 64).
      - left. rewrite Z.min_l by lia. symmetry. apply Z.div_unique with (r := z - 1); lia.
      - right. rewrite Z.min_r by lia. pose proof (Z.div_mod (z + 64 - 1) 64 ltac:(lia)). pose proof (Z.mod_pos_bound (z + 64 - 1) 64 ltac:(lia)). assert (0 <= (z + 64 - 1) / 64) by (apply Z.div_pos; lia). clear - H H0 H2 g. lia. }
    pose proof (K w W1) as Kw. pose proof (K h H1) as Kh. specialize (C E). clear K E. clear - C Kw Kh SW SH HS W1 H1.
    set (cw := (w + Z.min w 64 - 1) / Z.min w 64) in *. set (ch := (h + Z.min h 64 - 1) / Z.min h 64) in *.
    destruct C as [C | [C | [C | [C | [C | C]]]]]; [lia | lia | lia | lia | |].
    { assert (Z.min w 64 * Z.min h 64 <= 64 * 64) by (apply Z.mul_le_mono_nonneg; lia). clear - C H. lia. }
    clearbody cw ch. clear - C Kw Kh SW SH HS. revert C HS SW SH Kw Kh. revert cw ch. generalize w h. clear. intros a b cw ch C HS SW SH Kw Kh.
    destruct Kw as [-> | [Kw Kw']], Kh as [-> | [Kh Kh']]; [lia | lia | lia |].
    assert (32 * cw * (32 * ch) <= a * b) by (apply Z.mul_le_mono_nonneg; lia). lia.
  Qed.

  Lemma init_spec : 1 <= w -> 1 <= h ->
    match init_sparse alloc comp n numres bs with
    | None => ~ (forall i, alloc i = true)
    | Some sa => dims sa w h /\ filled sa
    end.
  Proof.
    intros W1 H1. unfold init_sparse, GeomModel.res_rect. cbn [fst snd].
    replace (n - 1 - (numres - 1)) with (n - numres) by lia.
    destruct sizes as (SW & SH & Sx & Sy). pose proof IX as (IX1 & IX2 & IX3 & IX4). pose proof IY as (IY1 & IY2 & IY3 & IY4).
    unfold res_axis, size_of. cbn [fst snd]. rewrite <- !ceil_same by lia. fold xa xb ya yb w h.
    rewrite !i32_id by (unfold in_i32; lia). rewrite !u32_id by lia.
    pose proof (create_some W1 H1) as CS. destruct (create w h (Z.min w 64) (Z.min h 64)) as [s0 |] eqn:E; [| contradiction].
    assert (D0 : dims s0 w h).
    { destruct (c26_create w h (Z.min w 64) (Z.min h 64) ltac:(unfold is_u32; lia) ltac:(unfold is_u32; lia) ltac:(unfold is_u32; lia) ltac:(unfold is_u32; lia)) as [_ C].
      destruct (C s0 E) as (A1 & A2 & A3 & _). split; [exact A1 | split; assumption]. }
    pose proof (blocks_spec bs s0 D0 HB) as B. destruct (fold_left (fun sa b => bind sa (put_block alloc comp n b)) bs (Some s0)) as [sa |]; [| exact B].
    destruct B as [B1 B2]. split; [exact B1 |]. intros r o p u v Hr Hb Hu Hv.
    destruct (bits _ _ _ Hb) as (Ho & Hp & Zo & Zp & _).
    destruct (HC r o p u v Hr Hb Hu Hv) as (b & Hin & K1 & K2 & K3).
    assert (RX : 0 <= place (fst comp) n r o u < w).
    { destruct Hu as [Hu _]. pose proof (place_range (fst comp) n r o u ltac:(lia) ltac:(lia) Ho Zo ltac:(lia)). pose proof (place_range (fst comp) n r o (u + 1) ltac:(lia) ltac:(lia) Ho Zo ltac:(lia)).
      assert (place (fst comp) n r o (u + 1) = place (fst comp) n r o u + 1) by (unfold place; lia).
      pose proof (shrink xa xb (n - numres) (n - 1 - r) ltac:(lia) Sx) as S'. fold w in S'. fold xa xb in H0. lia. }
    assert (RY : 0 <= place (snd comp) n r p v < h).
    { destruct Hv as [Hv _]. pose proof (place_range (snd comp) n r p v ltac:(lia) ltac:(lia) Hp Zp ltac:(lia)). pose proof (place_range (snd comp) n r p (v + 1) ltac:(lia) ltac:(lia) Hp Zp ltac:(lia)).
      assert (place (snd comp) n r p (v + 1) = place (snd comp) n r p v + 1) by (unfold place; lia).
      pose proof (shrink ya yb (n - numres) (n - 1 - r) ltac:(lia) Sy) as S'. fold h in S'. fold ya yb in H0. lia. }
    destruct (B2 _ _ RX RY) as [_ B3]. apply (B3 b Hin). exists o, p, u, v. rewrite K1, K2. auto.
  Qed.
  (** ** Levels *)

  Let rr (k : nat) : DwtModel.rect := DwtModel.res_rect (mkR xa ya xb yb) (n - 1 - Z.of_nat k).
  Variables tmp : mem.
  (** The plane after [k] levels of the full transform. *)
  Definition full (k : nat) : mem * mem := decode_levels w (rr 0) (map rr (seq 1 k)) (F, tmp).

  Lemma last_rr : forall k d, last (rr 0 :: map rr (seq 1 k)) d = rr k.
  Proof.
    intros k d. destruct k as [| k]; [reflexivity |]. rewrite seq_S, map_app, app_comm_cons. apply last_last.
  Qed.
  Lemma full_S : forall k, full (S k) = decode_level w (rr k) (rr (S k)) (full k).
  Proof.
    intros k. unfold full. rewrite seq_S, map_app. cbn [map]. rewrite decode_levels_snoc, last_rr. reflexivity.
  Qed.

  Lemma full_outside : forall k, Z.of_nat k < numres -> forall x y, 0 <= x < w -> 
    ~ (0 <= x < cl xb (n - 1 - Z.of_nat k) - cl xa (n - 1 - Z.of_nat k) /\ 0 <= y < cl yb (n - 1 - Z.of_nat k) - cl ya (n - 1 - Z.of_nat k)) ->
    fst (full k) (y * w + x) = F (y * w + x).
  Proof.
    destruct sizes as (SW & SH & Sx & Sy). pose proof IX as (IX1 & IX2 & IX3 & IX4). pose proof IY as (IY1 & IY2 & IY3 & IY4).
    fold xa xb in IX1, IX2, IX3, IX4. fold ya yb in IY1, IY2, IY3, IY4.
    induction k as [| k IH]; intros Hk x y Hx Hn; [reflexivity |].
    rewrite full_S. set (l := n - 1 - Z.of_nat (S k)) in *. assert (Hl : 0 <= l) by lia. replace (n - 1 - Z.of_nat k) with (l + 1) in IH by lia.
    pose proof (shrink xa xb (n - numres) l ltac:(lia) Sx) as WX. fold w in WX. pose proof (shrink ya yb (n - numres) l ltac:(lia) Sy) as WY. fold h in WY.
    pose proof (shrink xa xb l (l + 1) ltac:(lia) Sx) as VX. pose proof (shrink ya yb l (l + 1) ltac:(lia) Sy) as VY.
    assert (Hf : fits w (rr (S k))).
    { unfold fits, rr, DwtModel.res_rect. cbn [x0 x1 y0 y1]. fold l. split; [lia |]. split; [lia |]. transitivity (h * w); [apply Z.mul_le_mono_nonneg_r; lia | lia]. }
    assert (Hh : halves (rr k) (rr (S k))).
    { unfold halves, rr, DwtModel.res_rect. cbn [x0 x1 y0 y1]. fold l. replace (n - 1 - Z.of_nat k) with (l + 1) by lia. rewrite !ceil_step by exact Hl. auto. }
    assert (Z1 : 0 <= x0 (rr (S k))) by (unfold rr, DwtModel.res_rect; cbn [x0]; apply ceil_nonneg; lia).
    assert (Z2 : 0 <= y0 (rr (S k))) by (unfold rr, DwtModel.res_rect; cbn [y0]; apply ceil_nonneg; lia).
    unfold decode_level.
    pose proof (decode_hpass_spec w (rr k) (rr (S k)) (full k) Hf Hh Z1) as [_ H2].
    pose proof (decode_vpass_spec w (rr k) (rr (S k)) (decode_hpass w (rr k) (rr (S k)) (full k)) Hf Hh Z2) as [_ V2].
    unfold rr in H2, V2. unfold DwtModel.res_rect in H2, V2. cbn [x0 x1 y0 y1] in H2, V2. fold l in H2, V2.
    unfold rr, DwtModel.res_rect. fold l. rewrite V2, H2; [apply IH; [lia | exact Hx | lia] | exact Hx | lia | exact Hx | lia].
  Qed.

  (** The coefficients of the levels above [k] are still there. *)
  Definition kept (k : Z) (sa : sparse) : Prop := forall r o p u v, k < r < numres -> band_bits r o p ->
    wanted (fst comp) (fst win) n r o u -> wanted (snd comp) (snd win) n r p v ->
    view sa (place (fst comp) n r o u) (place (snd comp) n r p v) = F (place (snd comp) n r p v * w + place (fst comp) n r o u).
  Definition needed (k : Z) (x y : Z) : Prop :=
    need (cl xa (n - 1 - k)) (cl xb (n - 1 - k)) (cl (fst (fst win)) (n - 1 - k)) (cl (snd (fst win)) (n - 1 - k)) x /\
    need (cl ya (n - 1 - k)) (cl yb (n - 1 - k)) (cl (fst (snd win)) (n - 1 - k)) (cl (snd (snd win)) (n - 1 - k)) y.
  Definition good (k : nat) (st : option state) : Prop :=
    match st with
    | None => ~ (forall i, alloc i = true)
    | Some (sa, _) => dims sa w h /\ kept (Z.of_nat k) sa /\ forall x y, needed (Z.of_nat k) x y -> view sa x y = fst (full k) (y * w + x)
    end.

  Lemma good_0 : forall sa buf, dims sa w h -> filled sa -> good 0 (Some (sa, buf)).
  Proof.
    intros sa buf Hd Hf. split; [exact Hd |]. split; [intros r o p u v Hr; apply Hf; lia |].
    intros x y [Nx Ny]. cbn [Z.of_nat] in Nx, Ny. rewrite Z.sub_0_r in Nx, Ny. change (fst (full 0)) with F.
    specialize (Hf 0 0 0 (x + cl xa (n - 1)) (y + cl ya (n - 1)) ltac:(lia) ltac:(split; reflexivity)).
    unfold place, wanted, depth in Hf. cbn [Z.eqb Pos.eqb] in Hf. rewrite !sb_low in Hf by lia. fold xa xb ya yb in Hf.
    replace (x + cl xa (n - 1) - cl xa (n - 1) + 0) with x in Hf by lia. replace (y + cl ya (n - 1) - cl ya (n - 1) + 0) with y in Hf by lia.
    unfold need in Nx, Ny. apply Hf; lia.
  Qed.

  (** On one axis: a cell the windows of level [r] select is a sample of the
      resolution below that is needed, or a wanted coefficient. *)
  Lemma select : forall c wi r x, in_win c wi -> 1 <= r < n ->
    let l := n - 1 - r in
    inw (ax (cl (fst c) l) (cl (snd c) l) (cl (fst wi) l) (cl (snd wi) l)) x ->
    (need (cl (fst c) (l + 1)) (cl (snd c) (l + 1)) (cl (fst wi) (l + 1)) (cl (snd wi) (l + 1)) x /\
     exists u, wanted c wi n r 0 u /\ place c n r 0 u = x) \/
    (cl (snd c) (l + 1) - cl (fst c) (l + 1) <= x /\ exists u, wanted c wi n r 1 u /\ place c n r 1 u = x).
  Proof.
    intros c wi r x I Hr l Hin. assert (Hl : 0 <= l) by lia. unfold inw, ax in Hin. cbn [a_low a_high a_sn fst snd] in Hin.
    unfold wanted, place, depth. destruct (Z.eqb_spec r 0) as [E | _]; [lia |]. cbn [Z.eqb Pos.eqb].
    rewrite !sb_low, !sb_high by lia. replace (n - r - 1) with l by lia. replace (n - r) with (l + 1) by lia. unfold need. rewrite !cl_step by exact Hl.
    destruct (fair_at c wi l I Hl) as (F1 & F2 & F3 & F4).
    set (A := cl (fst c) l) in *. set (B := cl (snd c) l) in *. set (P := cl (fst wi) l) in *. set (Q := cl (snd wi) l) in *. clearbody A B P Q.
    pose proof (half_le A B ltac:(lia)). pose proof (half_le (A + 1) (B + 1) ltac:(lia)). clear - Hin H H0.
    destruct Hin as [Hin | Hin].
    - left. split; [lia |]. exists (x + (A + 1) / 2). lia.
    - right. split; [lia |]. exists (x - ((B + 1) / 2 - (A + 1) / 2) + A / 2). lia.
  Qed.

  Lemma band_outside : forall c r o u k, 0 <= fst c <= snd c -> 0 <= k < r -> r < n -> o = 1 -> sb o (depth n r) (fst c) <= u ->
    cl (snd c) (n - 1 - k) - cl (fst c) (n - 1 - k) <= place c n r o u.
  Proof.
    intros c r o u k Hc Hk Hr -> Hu. unfold place. cbn [Z.eqb Pos.eqb]. unfold depth in *. destruct (Z.eqb_spec r 0); [lia |].
    rewrite !(sb_low (n - r)) by lia. pose proof (shrink (fst c) (snd c) (n - r) (n - 1 - k) ltac:(lia) ltac:(lia)). lia.
  Qed.

  Lemma level_none : forall r, 1 <= r < n -> partial_level alloc comp win n r None = None.
  Proof.
    intros r Hr. unfold partial_level. rewrite !level_axis_eq by assumption.
    assert (E : forall hh vv, 0 <= a_n vv -> partial_rows alloc hh vv None = None).
    { intros hh vv V. unfold partial_rows. apply (for_ind (fun _ st => st = None)); [exact V | reflexivity | intros q st Hq ->; reflexivity]. }
    destruct (fair_at (fst comp) (fst win) (n - 1 - r) IX ltac:(lia)) as (F1 & F2 & F3 & F4).
    destruct (fair_at (snd comp) (snd win) (n - 1 - r) IY ltac:(lia)) as (V1 & V2 & V3 & V4).
    rewrite E by (cbn [a_n ax]; lia). rewrite partial_cols_eq.
    pose proof (ax_out _ _ _ _ F2 F3) as O. cbn zeta in O.
    apply (for_ind (fun _ st => st = None)); [| reflexivity | intros q st Hq ->; reflexivity]. apply Z.div_pos; lia.
  Qed.

  Lemma good_step : forall k st, Z.of_nat (S k) < numres -> good k st -> good (S k) (partial_level alloc comp win n (Z.of_nat (S k)) st).
  Proof.
    intros k st Hk G. set (r := Z.of_nat (S k)) in *. destruct st as [[sa buf] |]; [| rewrite level_none by lia; exact G].
    destruct G as (G1 & G2 & G3). unfold partial_level. rewrite !level_axis_eq by (assumption || lia).
    set (l := n - 1 - r). assert (Hl : 0 <= l) by lia.
    destruct sizes as (SW & SH & Sx & Sy). pose proof IX as (IX1 & IX2 & IX3 & IX4). pose proof IY as (IY1 & IY2 & IY3 & IY4).
    fold xa xb in IX1, IX2, IX3, IX4. fold ya yb in IY1, IY2, IY3, IY4.
    pose proof (fair_at (fst comp) (fst win) l IX Hl) as FX. pose proof (fair_at (snd comp) (snd win) l IY Hl) as FY. fold xa xb in FX. fold ya yb in FY. fold xa xb ya yb.
    pose proof (shrink xa xb (n - numres) l ltac:(lia) Sx) as WX. fold w in WX. pose proof (shrink ya yb (n - numres) l ltac:(lia) Sy) as WY. fold h in WY.
    assert (SZ : (cl yb l - cl ya l) * w <= 2 ^ 32) by (transitivity (h * w); [apply Z.mul_le_mono_nonneg_r; lia | lia]).
    destruct (full k) as [m t] eqn:EF.
    pose proof (level_spec alloc w h (cl xa l) (cl xb l) (cl (fst (fst win)) l) (cl (snd (fst win)) l) (cl ya l) (cl yb l) (cl (fst (snd win)) l) (cl (snd (snd win)) l)
      FX FY ltac:(lia) ltac:(lia) ltac:(lia) sa buf m t G1 SZ) as LS.
    match type of LS with ?K -> _ => assert (HM : K) end.
    { intros x y Hx Hy.
      destruct (select (fst comp) (fst win) r x IX ltac:(lia) Hx) as [(Nx & u & Ux & Ex) | (Gx & u & Ux & Ex)];
      destruct (select (snd comp) (snd win) r y IY ltac:(lia) Hy) as [(Ny & v & Vy & Ey) | (Gy & v & Vy & Ey)].
      { fold l in Nx, Ny. replace (l + 1) with (n - 1 - Z.of_nat k) in Nx, Ny by lia. apply G3. split; assumption. }
      all: assert (Rx : 0 <= x < w) by (pose proof (inw_range _ _ _ _ x FX Hx); lia).
      all: change m with (fst (m, t)); rewrite <- EF; rewrite full_outside; [| lia | exact Rx | replace (n - 1 - Z.of_nat k) with (l + 1) by lia; unfold xa, xb, ya, yb; try fold l in Gx; try fold l in Gy; lia].
      - pose proof (G2 r 0 1 u v ltac:(lia) ltac:(unfold band_bits; destruct (Z.eqb_spec r 0); lia) Ux Vy) as Q. rewrite Ex, Ey in Q. exact Q.
      - pose proof (G2 r 1 0 u v ltac:(lia) ltac:(unfold band_bits; destruct (Z.eqb_spec r 0); lia) Ux Vy) as Q. rewrite Ex, Ey in Q. exact Q.
      - pose proof (G2 r 1 1 u v ltac:(lia) ltac:(unfold band_bits; destruct (Z.eqb_spec r 0); lia) Ux Vy) as Q. rewrite Ex, Ey in Q. exact Q. }
    specialize (LS HM). clear HM.
    match goal with |- good _ ?t => match type of LS with match ?t' with _ => _ end => change t' with t in LS; destruct t as [[sa' b'] |]; [| exact LS] end end.
    destruct LS as (L1 & L2 & L3). split; [exact L1 |]. split.
    - intros r' o p u v Hr' Hb Hu Hv. rewrite L2; [apply G2; [lia | assumption | assumption | assumption] | | |].
      + destruct (bits _ _ _ Hb) as (Ho & Hp & Zo & Zp & _). destruct Hu as [Hu _].
        pose proof (place_range (fst comp) n r' o u ltac:(fold xa xb; lia) ltac:(lia) Ho Zo ltac:(lia)) as R1. pose proof (place_range (fst comp) n r' o (u + 1) ltac:(fold xa xb; lia) ltac:(lia) Ho Zo ltac:(lia)) as R2.
        assert (R3 : place (fst comp) n r' o (u + 1) = place (fst comp) n r' o u + 1) by (unfold place; lia).
        pose proof (shrink xa xb (n - numres) (n - 1 - r') ltac:(lia) Sx) as S'. fold w in S'. fold xa xb in R1, R2. lia.
      + destruct (bits _ _ _ Hb) as (Ho & Hp & Zo & Zp & _). destruct Hv as [Hv _].
        pose proof (place_range (snd comp) n r' p v ltac:(fold ya yb; lia) ltac:(lia) Hp Zp ltac:(lia)) as R1. pose proof (place_range (snd comp) n r' p (v + 1) ltac:(fold ya yb; lia) ltac:(lia) Hp Zp ltac:(lia)) as R2.
        assert (R3 : place (snd comp) n r' p (v + 1) = place (snd comp) n r' p v + 1) by (unfold place; lia).
        pose proof (shrink ya yb (n - numres) (n - 1 - r') ltac:(lia) Sy) as S'. fold h in S'. fold ya yb in R1, R2. lia.
      + intros [K1 K2]. unfold band_bits in Hb. destruct (Z.eqb_spec r' 0); [lia |]. destruct Hb as (Ho & Hp & Hop).
        assert (o = 1 \/ p = 1) as [-> | ->] by lia.
        * pose proof (band_outside (fst comp) r' 1 u r ltac:(fold xa xb; lia) ltac:(lia) ltac:(lia) eq_refl (proj1 (proj1 Hu))) as O. fold l xa xb in O. lia.
        * pose proof (band_outside (snd comp) r' 1 v r ltac:(fold ya yb; lia) ltac:(lia) ltac:(lia) eq_refl (proj1 (proj1 Hv))) as O. fold l ya yb in O. lia.
    - intros x y [Nx Ny]. fold r l in Nx, Ny. rewrite L3 by assumption. rewrite full_S, EF. unfold rr, DwtModel.res_rect. cbn [x0 x1 y0 y1]. fold r l.
      replace (n - 1 - Z.of_nat k) with (l + 1) by lia. rewrite !cl_step by exact Hl. reflexivity.
  Qed.

  Lemma levels_good : forall sa buf, dims sa w h -> filled sa ->
    good (Z.to_nat (numres - 1)) (for_to 1 numres (partial_level alloc comp win n) (Some (sa, buf))).
  Proof.
    intros sa buf Hd Hf.
    apply (for_ind (fun j st => good (Z.to_nat (j - 1)) st) 1 numres); [lia | apply good_0; assumption |].
    intros j st Hj G. replace (Z.to_nat (j + 1 - 1)) with (S (Z.to_nat (j - 1))) by lia.
    replace j with (Z.of_nat (S (Z.to_nat (j - 1)))) at 2 by lia. apply good_step; [lia | exact G].
  Qed.

  (** ** Reading the window *)

  Let X0 := cl (fst (fst win)) (n - numres). Let X1 := cl (snd (fst win)) (n - numres).
  Let Y0 := cl (fst (snd win)) (n - numres). Let Y1 := cl (snd (snd win)) (n - numres).

  Definition cropped (d data : mem) : Prop :=
    (forall x y, X0 <= x < X1 -> Y0 <= y < Y1 -> d ((y - Y0) * (X1 - X0) + (x - X0)) = fst (full (Z.to_nat (numres - 1))) ((y - cl ya (n - numres)) * w + (x - cl xa (n - numres)))) /\
    (forall a, ~ (0 <= a < (Y1 - Y0) * (X1 - X0)) -> d a = data a).

  Lemma read_good : forall st data, good (Z.to_nat (numres - 1)) st ->
    match bind st (fun st => read_window (GeomModel.res_rect comp n (numres - 1)) (win_axis (fst win) n (numres - 1), win_axis (snd win) n (numres - 1)) (fst st) data) with
    | None => ~ (forall i, alloc i = true)
    | Some d => cropped d data
    end.
  Proof.
    intros [[sa buf] |] data G; cbn [bind]; [| exact G]. destruct G as ((Hwf & Ew & Eh) & _ & G).
    destruct sizes as (SW & SH & Sx & Sy). pose proof IX as (IX1 & IX2 & IX3 & IX4). pose proof IY as (IY1 & IY2 & IY3 & IY4).
    unfold read_window, win_axis, GeomModel.res_rect, res_axis. cbn [fst snd].
    rewrite (u32_id (n - 1)), (u32_id (n - 1 - (numres - 1))) by lia. replace (n - 1 - (numres - 1)) with (n - numres) by lia.
    rewrite <- !ceil_same by lia. rewrite !uint_ceil by lia. fold X0 X1 Y0 Y1.
    destruct (fair_at (fst comp) (fst win) (n - numres) IX ltac:(lia)) as (F1 & F2 & F3 & F4). destruct (fair_at (snd comp) (snd win) (n - numres) IY ltac:(lia)) as (V1 & V2 & V3 & V4).
    fold xa xb in F1, F2, F3, F4. fold ya yb in V1, V2, V3, V4. fold X0 X1 in F1, F2, F3, F4. fold Y0 Y1 in V1, V2, V3, V4. fold xa xb ya yb.
    assert (UX : forall z, cl xa (n - numres) <= z < 2 ^ 31 -> u32 (z - cl xa (n - numres)) = z - cl xa (n - numres)) by (intros; apply u32_id; lia).
    assert (UY : forall z, cl ya (n - numres) <= z < 2 ^ 31 -> u32 (z - cl ya (n - numres)) = z - cl ya (n - numres)) by (intros; apply u32_id; lia).
    rewrite (u32_id (cl xa (n - numres))), (u32_id (cl ya (n - numres))) by lia. rewrite !UX, !UY by lia. rewrite (u32_id (X1 - X0)) by lia. clear UX UY.
    destruct (fetch_spec sa (X0 - cl xa (n - numres)) (Y0 - cl ya (n - numres)) (X1 - cl xa (n - numres)) (Y1 - cl ya (n - numres)) 0 1 (X1 - X0) data Hwf
       ltac:(lia) ltac:(lia) ltac:(rewrite Ew; unfold w; lia) ltac:(rewrite Eh; unfold h; lia) ltac:(lia) ltac:(lia)) as (d & -> & D1 & D2).
    { intros x y x' y' [I1 I2] [I3 I4] E. unfold addr in E. rewrite !Z.mul_1_r in E.
      destruct (row_col (X1 - X0) (y - (Y0 - cl ya (n - numres))) (y' - (Y0 - cl ya (n - numres))) (x - (X0 - cl xa (n - numres))) (x' - (X0 - cl xa (n - numres))) ltac:(lia) ltac:(lia) E). lia. }
    split.
    - intros x y Hx Hy. rewrite <- G.
      + rewrite <- D1 by lia. f_equal. lia.
      + unfold needed, need. replace (n - 1 - Z.of_nat (Z.to_nat (numres - 1))) with (n - numres) by lia. fold X0 X1 Y0 Y1. lia.
    - intros a Ha. apply D2. intros x y Hx Hy E. apply Ha. rewrite E.
      assert (M1 : 0 <= (y - (Y0 - cl ya (n - numres))) * (X1 - X0)) by (apply Z.mul_nonneg_nonneg; lia).
      assert (M2 : (y - (Y0 - cl ya (n - numres)) + 1) * (X1 - X0) <= (Y1 - Y0) * (X1 - X0)) by (apply Z.mul_le_mono_nonneg_r; lia).
      rewrite Z.mul_add_distr_r in M2. lia.
  Qed.

  Lemma tile_good : forall buf data,
    match decode_partial_tile alloc comp win n numres bs buf data with
    | None => ~ (forall i, alloc i = true)
    | Some d => cropped d data
    end.
  Proof.
    intros buf data. unfold decode_partial_tile.
    destruct sizes as (SW & SH & Sx & Sy). pose proof IX as (IX1 & IX2 & IX3 & IX4). pose proof IY as (IY1 & IY2 & IY3 & IY4).
    assert (TX : fst (fst (GeomModel.res_rect comp n (numres - 1))) = cl xa (n - numres) /\ snd (fst (GeomModel.res_rect comp n (numres - 1))) = cl xb (n - numres) /\
                 fst (snd (GeomModel.res_rect comp n (numres - 1))) = cl ya (n - numres) /\ snd (snd (GeomModel.res_rect comp n (numres - 1))) = cl yb (n - numres)).
    { unfold GeomModel.res_rect, res_axis. cbn [fst snd]. replace (n - 1 - (numres - 1)) with (n - numres) by lia. rewrite <- !ceil_same by lia. auto. }
    destruct TX as (T1 & T2 & T3 & T4).
    destruct (fair_at (fst comp) (fst win) (n - numres) IX ltac:(lia)) as (F1 & F2 & F3 & F4). destruct (fair_at (snd comp) (snd win) (n - numres) IY ltac:(lia)) as (V1 & V2 & V3 & V4).
    fold xa xb in F1, F2, F3, F4. fold ya yb in V1, V2, V3, V4. fold X0 X1 in F1, F2, F3, F4. fold Y0 Y1 in V1, V2, V3, V4.
    destruct ((fst (fst (GeomModel.res_rect comp n (numres - 1))) =? snd (fst (GeomModel.res_rect comp n (numres - 1)))) || (fst (snd (GeomModel.res_rect comp n (numres - 1))) =? snd (snd (GeomModel.res_rect comp n (numres - 1))))) eqn:E.
    - split; [| reflexivity]. intros x y Hx Hy. exfalso. rewrite T1, T2, T3, T4 in E. apply orb_prop in E. destruct E as [E | E]; apply Z.eqb_eq in E; lia.
    - apply orb_false_elim in E. destruct E as [E1 E2]. apply Z.eqb_neq in E1, E2. rewrite T1, T2 in E1. rewrite T3, T4 in E2.
      pose proof (init_spec ltac:(unfold w; lia) ltac:(unfold h; lia)) as IN. destruct (init_sparse alloc comp n numres bs) as [sa |]; cbn [bind]; [| exact IN].
      destruct IN as [I1 I2]. pose proof (levels_good sa buf I1 I2) as LG. pose proof (read_good _ data LG) as RG.
      destruct (Z.eqb_spec numres 1) as [E | E]; [| exact RG].
      rewrite for_empty in RG by lia. exact RG.
  Qed.
End Tile.
