(** The packets and the components of an area. *)

From Coq Require Import ZArith List Bool Arith Lia ZifyNat.
From Verif Require Import I32 Ints Mem MathModel MathProps DwtModel DwtProps DwtTile SampleModel SampleProofs SparseModel WindowModel WindowSpec WindowAxis WindowProofs WindowTile WindowProps.
From Verif Require Import MathModel GeomModel GeomProofs GeomCover GeomProps PiModel PiSpec T2PacketModel T2PacketSkip T1Model T1Props CblkModel PacketsModel TileModel TileGeom TileProofs TileProps AreaModel AreaPackets AreaGeom AreaJobs AreaProofs.
Import ListNotations.
Local Open Scope Z_scope.
Local Notation u32 := Ints.u32.
Local Notation rect := GeomModel.rect.
Local Notation within := GeomProofs.within.
Local Notation pl := PacketsModel.place.
Ltac Zify.zify_post_hook ::= idtac.

(** The precincts of every resolution can be set up (tcd.rs:1008-1023). *)
Definition grids_up (T : tile) : Prop :=
  forall c r comp, resolution T c r -> tile_comp T c = Some comp ->
    prec_axis (fst (GeomModel.res_rect comp (nres (par T c)) r)) (ex (par T c) r) <> None /\ prec_axis (snd (GeomModel.res_rect comp (nres (par T c)) r)) (ey (par T c) r) <> None.
(** No component is a single sample at the origin, with more than one resolution. *)
Definition not_lone (T : tile) : Prop := forall c, 0 <= c < Z.of_nat (length (t_comps T)) -> nres (par T c) = 1 \/ tile_comp T c <> Some ((0, 1), (0, 1)).

Lemma flat_map_ext_in : forall {A B} (f g : A -> list B) l, (forall a, In a l -> f a = g a) -> flat_map f l = flat_map g l.
Proof. intros A B f g l H. rewrite !flat_map_concat_map. f_equal. apply map_ext_in, H. Qed.

(** ** Which resolution was decoded *)

Lemma noted : forall T want ps st, Forall (valid T) ps ->
  let dec := snd (fold_left (note T want) ps st) in
  (forall c, 0 <= snd st c -> (0 <= c < Z.of_nat (length (t_comps T)) -> 1 <= nres (par T c) < 2 ^ 32) -> 0 <= c < Z.of_nat (length (t_comps T)) -> snd st c < nres (par T c) -> snd st c <= dec c < nres (par T c)) /\
  (forall l r c k, In (l, r, c, k) ps -> want (l, r, c, k) = true -> (forall c', 0 <= c' < Z.of_nat (length (t_comps T)) -> 1 <= nres (par T c') < 2 ^ 32 /\ 0 <= snd st c' < nres (par T c')) -> r <= dec c) /\
  (forall c, (forall l r k, ~ In (l, r, c, k) ps) -> dec c = snd st c).
Proof.
  intros T want. cbn zeta. induction ps as [| q ps IH]; intros st HV; cbn [fold_left].
  - split; [intros; lia |]. split; [intros l r c k [] | reflexivity].
  - pose proof (Forall_inv HV) as V. apply Forall_inv_tail in HV. destruct (IH (note T want st q) HV) as (I1 & I2 & I3). clear IH. destruct q as [[[l r] c] k]. destruct V as (V1 & V2 & V3 & V4).
    destruct st as [failed dec]. cbn [snd] in *.
    assert (ST : forall x, 0 <= dec x -> (0 <= x < Z.of_nat (length (t_comps T)) -> 1 <= nres (par T x) < 2 ^ 32) -> 0 <= x < Z.of_nat (length (t_comps T)) -> dec x < nres (par T x) ->
      dec x <= snd (note T want (failed, dec) (l, r, c, k)) x < nres (par T x)).
    { intros x H0 H1 H2 H3. specialize (H1 H2). unfold note. destruct (want (l, r, c, k)); cbn [snd].
      - destruct (Z.eqb_spec x c) as [-> |]; lia.
      - destruct (failed c && (dec c =? 0)) eqn:F; cbn [snd]; [| lia]. destruct (Z.eqb_spec x c) as [-> |]; [| lia]. rewrite u32_id by lia. lia. }
    split; [| split].
    + intros x H0 H1 H2 H3. pose proof (ST x H0 H1 H2 H3). pose proof (I1 x ltac:(lia) H1 H2 ltac:(lia)). lia.
    + intros l' r' c' k' [E | I] Hw HN.
      * injection E as <- <- <- <-. destruct (HN c V2) as [N1 N2]. pose proof (ST c ltac:(lia) ltac:(intros; lia) V2 ltac:(lia)).
        pose proof (I1 c ltac:(lia) ltac:(intros; lia) V2 ltac:(lia)) as M. assert (r <= snd (note T want (failed, dec) (l, r, c, k)) c); [| lia].
        unfold note. rewrite Hw. cbn [snd]. rewrite Z.eqb_refl. lia.
      * apply (I2 l' r' c' k' I Hw). intros x Hx. destruct (HN x Hx) as [N1 N2]. pose proof (ST x ltac:(lia) ltac:(intros; lia) Hx ltac:(lia)). lia.
    + intros x Hx. rewrite I3 by (intros l' r' k' I; apply (Hx l' r' k'); right; exact I).
      assert (Ne : x <> c) by (intros ->; apply (Hx l r k); left; reflexivity). unfold note. destruct (want (l, r, c, k)); [| destruct (failed c && (dec c =? 0))]; cbn [snd]; destruct (Z.eqb_spec x c); congruence.
Qed.

(** ** The highest resolution *)

(** A component of one sample at an even coordinate: its high-pass half is
    empty, but the window may still call for its precinct. *)
Lemma lone_axis : forall n r e w o pd st nn, 2 <= n <= 33 -> r = n - 1 -> extent_in e w -> snd e = fst e + 1 -> fst e mod 2 = 0 -> (o = 0 \/ o = 1) -> (o = 1 -> fst e <> 0) -> 1 <= pd <= 15 ->
  prec_axis (res_axis e 0) pd = Some (st, nn) -> 0 < nn /\ let '(g, e') := group_axis r st pd in interest_axis n r o w (precinct_axis g e' (band_axis r e 0 o) 0) = true.
Proof.
  intros n r e w o pd st nn Hn Hr (E0 & E1 & E2 & E3) He Hev Ho Hz Hp E. assert (X : extent e) by (split; lia).
  pose proof (group_grid r e 0 o pd st nn X ltac:(lia) ltac:(lia) ltac:(lia) ltac:(lia) ltac:(lia) ltac:(lia) E) as G.
  destruct (res_axis_spec e 0 X ltac:(lia)) as (A & B & RX). unfold ceil_of in A, B. rewrite Z.pow_0_r in A, B.
  assert (NP : 0 < nn). { destruct (prec_axis_spec (res_axis e 0) pd st nn RX ltac:(lia) E) as (s & z & _ & _ & _ & _ & _ & _ & _ & P). apply P. lia. }
  split; [exact NP |]. destruct (band_of_res r e 0 o X ltac:(lia) ltac:(lia) ltac:(lia) ltac:(lia)) as [B0 B1]. unfold ceil_of in B0, B1.
  destruct (group_axis r st pd) as [g e']. destruct (precinct_spec g e' nn (band_axis r e 0 o) 0 G ltac:(lia)) as (PE & P1 & P2). rewrite PE.
  destruct G as (G1 & G2 & _ & _ & G3 & G4 & _ & G5). destruct (G5 NP) as (G6 & G7 & G8). assert (P : 0 < 2 ^ e') by (apply Z.pow_pos_nonneg; lia).
  pose proof (sb_ceil o (depth n r) (fst w)) as S0. pose proof (sb_ceil o (depth n r) (snd w)) as S1. assert (depth n r = 1) as D by (unfold depth; destruct (Z.eqb_spec r 0); lia). rewrite D in S0, S1. specialize (S0 ltac:(lia)). specialize (S1 ltac:(lia)).
  change (2 ^ (1 - 1)) with 1 in S0, S1. change (2 ^ 1) with 2 in S0, S1. unfold ceil_of in S0, S1. pose proof (Z.div_mod (fst e) 2 ltac:(lia)) as DM. rewrite Hev in DM.
  apply axis_interest; try lia; cbn [fst snd]; rewrite ?D; lia.
Qed.

Section Area.
  Context (psize size : Z) (T : tile) (S : Z -> style) (csty : Z) (win : rect) (ps : list packet) (data rest : list Z) (ds : pl -> list dband).
  Hypothesis (HW : wf T) (HS : sizes_ok T S) (HU : sets_up psize size T S) (HG : grids_up T) (HL : 1 <= t_layers T) (HO : overlaps T win)
    (HP : forall q, In q ps <-> valid T q) (HD : Z.of_nat (length data) < 2 ^ 32)
    (HR : read_packets (fun c => s_sty (S c)) csty (fun _ => true) (or_none (dec_place psize size T S)) ps data = Some (ds, rest)).

  (** ** Packets *)

  Definition good (p : pl) : Prop := let '(r, c, k) := p in area_want T win (0, r, c, k) = true.

  Lemma start_lens : forall p, bands_lens (or_none (dec_place psize size T S) p).
  Proof.
    intros [[r c] k]. unfold or_none, dec_place. destruct (negb _); [constructor |]. destruct (tile_comp T c) as [comp |]; [| constructor]. destruct (res_bands _ _ _ _ comp r) as [bs |]; [| constructor].
    apply Forall_map, Forall_forall. intros [b q] _. cbn [db_blocks]. apply Forall_map, Forall_forall. intros x _. unfold lens_u32, blank_block. cbn [d_segs]. constructor.
  Qed.

  Lemma read_area : exists ds2, read_packets (fun c => s_sty (S c)) csty (area_want T win) (or_none (dec_place psize size T S)) ps data = Some (ds2, rest) /\ forall p, good p -> ds2 p = ds p.
  Proof.
    pose proof (read_step (fun c => s_sty (S c)) csty ps (fun _ => true) (area_want T win) (or_none (dec_place psize size T S)) (or_none (dec_place psize size T S)) data good start_lens HD (fun _ => eq_refl) (fun _ _ => eq_refl)) as G.
    rewrite HR in G. destruct (read_packets _ _ (area_want T win) _ ps data) as [[ds2 rest2] |].
    - destruct G as [<- G]; [| exists ds2; split; [reflexivity | intros p Hp; symmetry; apply G, Hp]].
      intros [[[l r] c] k] I Hg. apply HP in I. destruct I as (V1 & _). unfold good, place_of, area_want in *. destruct (Z.ltb_spec l (t_layers T)); [| lia]. destruct (Z.ltb_spec 0 (t_layers T)); [| lia]. symmetry. exact Hg.
    - exfalso. apply G. intros [[[l r] c] k] I Hg. apply HP in I. destruct I as (V1 & _). unfold good, place_of, area_want in *. destruct (Z.ltb_spec l (t_layers T)); [| lia]. destruct (Z.ltb_spec 0 (t_layers T)); [| lia]. symmetry. exact Hg.
  Qed.

  Section Comp.
  Context (c : Z) (comp w : rect).
  Hypothesis (Hc : 0 <= c < Z.of_nat (length (t_comps T))) (Ec : tile_comp T c = Some comp) (Ew : comp_window T win c = Some w)
    (EX : extent_in (fst comp) (fst w)) (EY : extent_in (snd comp) (snd w)).
  Let n := nres (par T c).

  Lemma good_of : forall r b k q, resolution T c r -> band_ok psize size T S c r comp b -> nth_error (b_precs b) k = Some q -> interest n r (orient r (b_no b)) w (prect q) = true -> good (r, c, Z.of_nat k).
  Proof.
    intros r b k q Hr B Hq HI. unfold good, area_want. destruct (Z.ltb_spec 0 (t_layers T)); [| lia]. destruct (Z.ltb_spec r (nres (par T c))); [| destruct Hr; lia]. cbn [andb]. rewrite Ec, Ew.
    apply existsb_exists. exists (b_no b). split; [exact (bo_in _ _ _ _ _ _ _ _ B) |]. rewrite (precinct_is _ _ _ _ _ _ _ _ _ _ B Hq). exact HI.
  Qed.

  (** What the packets left for band [i] and precinct [k]. *)
  Lemma found_all : forall r bs i b k q, resolution T c r -> res_bands psize size (par T c) (S c) comp r = Some bs -> nth_error bs i = Some b -> nth_error (b_precs b) k = Some q ->
    exists d, nth_error (ds (r, c, Z.of_nat k)) i = Some d /\ length (db_blocks d) = length (cblks q).
  Proof.
    intros r bs i b k q Hr Eb Hi Hq. pose proof (read_shape _ _ _ _ _ _ _ HR (r, c, Z.of_nat k)) as Sh.
    assert (PE : or_none (dec_place psize size T S) (r, c, Z.of_nat k) = map (fun bp => let '(b, q) := bp in mkDB (planes (S c) r (b_no b)) (prec_tree q) (prec_tree q) (map (fun _ => blank_block) (cblks q))) (at_precinct bs (Z.of_nat k))).
    { unfold or_none, dec_place. change (negb _) with (outside T (r, c, Z.of_nat k)). assert (outside T (r, c, Z.of_nat k) = false) as -> by (apply outside_spec; split; [exact Hr | lia]). rewrite Ec, Eb. reflexivity. }
    rewrite PE in Sh. pose proof (bands_ok psize size T S c r comp bs HW HS Hr Ec (proj1 HU) (proj1 (proj2 HU)) Eb) as BO. rewrite Forall_forall in BO. pose proof (bo_count _ _ _ _ _ _ _ _ (BO b (nth_error_In _ _ Hi))) as Cb.
    assert (Lk : (k < length (b_precs b))%nat) by (apply nth_error_Some; congruence).
    assert (N : nth_error (at_precinct bs (Z.of_nat k)) i = Some (b, q)).
    { apply at_precinct_nth; [| exact Hi | rewrite Nat2Z.id; exact Hq]. intros b' I'. pose proof (bo_count _ _ _ _ _ _ _ _ (BO b' I')). lia. }
    pose proof (f_equal (fun l => nth_error l i) Sh) as Q. cbv beta in Q. unfold shape in Q. rewrite !nth_error_map, N in Q. cbn [option_map] in Q.
    destruct (nth_error (ds (r, c, Z.of_nat k)) i) as [d |]; cbn [option_map] in Q; [| discriminate Q]. exists d. split; [reflexivity |]. apply some_inj in Q. cbn [db_blocks] in Q. rewrite map_length in Q. exact Q.
  Qed.

  (** The block with a wanted coefficient. *)
  Lemma wanted_block : forall r o p u v, 0 <= r < n -> band_bits r o p -> wanted (fst comp) (fst w) n r o u -> wanted (snd comp) (snd w) n r p v ->
    exists bs i b k q blk, resolution T c r /\ res_bands psize size (par T c) (S c) comp r = Some bs /\ orient r (b_no b) = o + 2 * p /\ band_ok psize size T S c r comp b /\
      nth_error bs i = Some b /\ nth_error (b_precs b) k = Some q /\ In blk (cblks q) /\ inside blk u v /\ interest n r (o + 2 * p) w (prect q) = true /\ interest n r (o + 2 * p) w blk = true.
  Proof.
    intros r o p u v Hr HB Wu Wv. assert (RR : resolution T c r) by (split; assumption). destruct (comp_extents T c comp HW Hc Ec) as (X & Y & N). fold n in N.
    destruct (bits_ori r o p HB) as (b0 & Hb0 & Eo & Ep). destruct (ori_bits r b0 Hb0) as [_ Or]. rewrite Eo, Ep in Or.
    assert (Hin : inside (band_rect comp n r b0) u v). { rewrite (band_rect_sb comp n r b0 X Y N Hr Hb0). rewrite Eo, Ep. unfold inside, GeomProofs.within. cbn [fst snd]. split; [exact (proj1 Wu) | exact (proj1 Wv)]. }
    assert (Ne : is_band_empty (band_rect comp n r b0) = false).
    { unfold is_band_empty. apply orb_false_iff. unfold inside, GeomProofs.within in Hin. split; apply Z.eqb_neq; lia. }
    pose proof (proj2 (proj2 HU) c r comp RR Ec) as U. destruct (res_bands psize size (par T c) (S c) comp r) as [bs |] eqn:Eb; [| contradiction]. clear U.
    destruct (bands_has _ _ _ _ _ _ _ b0 Eb Hb0 Ne) as (i & b & Hi & Nb).
    pose proof (bands_ok psize size T S c r comp bs HW HS RR Ec (proj1 HU) (proj1 (proj2 HU)) Eb) as BO. rewrite Forall_forall in BO. pose proof (BO b (nth_error_In _ _ Hi)) as B.
    destruct (c38_partition _ _ _ _ _ _ _ _ (bo_set _ _ _ _ _ _ _ _ B) (bo_precs _ _ _ _ _ _ _ _ B)) as (C1 & _ & _). rewrite Nb in C1. destruct (C1 u v Hin) as (k & j & blk & (q & Hq & Hj) & Hblk).
    exists bs, i, b, k, q, blk. split; [exact RR |]. split; [reflexivity |]. split; [rewrite Nb; exact Or |]. split; [exact B |]. split; [exact Hi |]. split; [exact Hq |]. split; [exact (nth_error_In _ _ Hj) |]. split; [exact Hblk |].
    destruct (block_bounds _ _ _ _ _ _ _ _ k j blk HW Ec RR B ltac:(exists q; auto)) as (K1 & K2 & K3 & K4 & _). destruct (precinct_bounds _ _ _ _ _ _ _ _ k q HW Ec RR B Hq) as (Q1 & Q2 & Q3 & Q4).
    split; [apply (point_interest comp w n r o p (prect q) u v EX EY Hr ltac:(lia) HB Wu Wv (block_in_precinct _ _ _ _ _ _ _ _ _ _ _ _ _ _ B Hq Hj Hblk)); assumption |].
    apply (point_interest comp w n r o p blk u v EX EY Hr ltac:(lia) HB Wu Wv Hblk); lia.
  Qed.

  (** ** The highest resolution *)

  Lemma axis_some : forall (e : Z * Z) (we : Z * Z) o r, 0 <= r < n -> extent_in e we -> sb o (depth n r) (fst e) < sb o (depth n r) (snd e) -> exists u, wanted e we n r o u.
  Proof.
    intros e we o r Hr (E0 & E1 & E2 & E3) H. pose proof (depth_pos n r Hr) as DP.
    pose proof (sb_mono o (depth n r) (fst e) (fst we) ltac:(lia) ltac:(lia)). pose proof (sb_mono o (depth n r) (fst we) (snd we) ltac:(lia) ltac:(lia)). pose proof (sb_mono o (depth n r) (snd we) (snd e) ltac:(lia) ltac:(lia)).
    exists (Z.min (sb o (depth n r) (fst we)) (sb o (depth n r) (snd e) - 1)). unfold wanted. lia.
  Qed.

  Lemma top_wanted : 2 <= n -> fst (fst comp) < snd (fst comp) -> fst (snd comp) < snd (snd comp) -> comp <> ((0, 1), (0, 1)) ->
    exists k, valid T (0, n - 1, c, k) /\ area_want T win (0, n - 1, c, k) = true.
  Proof.
    intros N2 Nx Ny NL. destruct (comp_extents T c comp HW Hc Ec) as (X & Y & N). fold n in N. assert (Hr : 0 <= n - 1 < n) by lia. assert (RR : resolution T c (n - 1)) by (split; [exact Hc | exact Hr]).
    assert (D : depth n (n - 1) = 1) by (unfold depth; destruct (Z.eqb_spec (n - 1) 0); lia).
    assert (LO : forall a, sb 0 1 a = (a + 1) / 2) by (intros a; unfold sb; change (2 ^ 1) with 2; change (2 ^ (1 - 1)) with 1; f_equal; lia).
    assert (HI : forall a, sb 1 1 a = a / 2) by (intros a; unfold sb; change (2 ^ 1) with 2; change (2 ^ (1 - 1)) with 1; f_equal; lia).
    assert (K : forall a b : Z, a < b -> a / 2 < b / 2 \/ (a + 1) / 2 < (b + 1) / 2 /\ (a / 2 = b / 2 -> b = a + 1 /\ a mod 2 = 0)).
    { intros a b L. pose proof (Z.div_mod a 2 ltac:(lia)). pose proof (Z.mod_pos_bound a 2 ltac:(lia)). pose proof (Z.div_mod b 2 ltac:(lia)). pose proof (Z.mod_pos_bound b 2 ltac:(lia)).
      pose proof (Z.div_mod (a + 1) 2 ltac:(lia)). pose proof (Z.mod_pos_bound (a + 1) 2 ltac:(lia)). pose proof (Z.div_mod (b + 1) 2 ltac:(lia)). pose proof (Z.mod_pos_bound (b + 1) 2 ltac:(lia)). lia. }
    assert (LL : forall o p, (o = 0 \/ o = 1) -> (p = 0 \/ p = 1) -> o + p <> 0 -> sb o 1 (fst (fst comp)) < sb o 1 (snd (fst comp)) -> sb p 1 (fst (snd comp)) < sb p 1 (snd (snd comp)) ->
      exists k, valid T (0, n - 1, c, k) /\ area_want T win (0, n - 1, c, k) = true).
    { intros o p Ho Hp Hop Wx Wy. destruct (axis_some (fst comp) (fst w) o (n - 1) Hr EX ltac:(rewrite D; exact Wx)) as [u Wu]. destruct (axis_some (snd comp) (snd w) p (n - 1) Hr EY ltac:(rewrite D; exact Wy)) as [v Wv].
      destruct (wanted_block (n - 1) o p u v Hr ltac:(unfold band_bits; destruct (Z.eqb_spec (n - 1) 0); [lia | auto]) Wu Wv) as (bs & i & b & k & q & blk & _ & _ & Or & B & _ & Hq & _ & _ & I1 & _).
      rewrite <- Or in I1. exists (Z.of_nat k). split; [| exact (good_of (n - 1) b k q RR B Hq I1)]. pose proof (bo_count _ _ _ _ _ _ _ _ B) as Cb. assert ((k < length (b_precs b))%nat) by (apply nth_error_Some; congruence).
      unfold valid. split; [lia |]. split; [exact Hc |]. split; [exact Hr | lia]. }
    destruct (K _ _ Nx) as [Kx | [Kx Kx2]], (K _ _ Ny) as [Ky | [Ky Ky2]].
    - apply (LL 1 1); rewrite ?HI; auto; lia.
    - apply (LL 1 0); rewrite ?HI, ?LO; auto; lia.
    - apply (LL 0 1); rewrite ?HI, ?LO; auto; lia.
    - destruct (Z.lt_ge_cases (fst (fst comp) / 2) (snd (fst comp) / 2)) as [Q | Q]; [apply (LL 1 0); rewrite ?HI, ?LO; auto; lia |].
      destruct (Z.lt_ge_cases (fst (snd comp) / 2) (snd (snd comp) / 2)) as [Q' | Q']; [apply (LL 0 1); rewrite ?HI, ?LO; auto; lia |].
      pose proof (Z.div_le_mono (fst (fst comp)) (snd (fst comp)) 2 ltac:(lia) ltac:(lia)). pose proof (Z.div_le_mono (fst (snd comp)) (snd (snd comp)) 2 ltac:(lia) ltac:(lia)).
      destruct (Kx2 ltac:(lia)) as [X1 Xe]. destruct (Ky2 ltac:(lia)) as [Y1 Ye]. clear K LL Kx2 Ky2.
      destruct (HG c (n - 1) comp RR Ec) as [Gx Gy]. fold n in Gx, Gy.
      destruct (tile_comp_some T c HW Hc) as (comp' & E' & Tx & Ty). assert (comp' = comp) as -> by congruence. destruct (wf_params T c (n - 1) HW RR) as (W1 & W2 & W3 & W4 & W5).
      destruct (HS c Hc) as (_ & _ & _ & S4 & _). destruct (S4 (n - 1) ltac:(lia)) as [S5 S5']. clear S4.
      destruct (prec_axis (fst (GeomModel.res_rect comp n (n - 1))) (ex (par T c) (n - 1))) as [[stx pw] |] eqn:Px; [| contradiction]. destruct (prec_axis (snd (GeomModel.res_rect comp n (n - 1))) (ey (par T c) (n - 1))) as [[sty ph] |] eqn:Py; [| contradiction].
      unfold GeomModel.res_rect in Px, Py. cbn [fst snd] in Px, Py. replace (n - 1 - (n - 1)) with 0 in Px, Py by lia.
      pose proof (spans_count (t_x0 T) (t_x1 T) (sx (par T c)) (fst comp) 0 (ex (par T c) (n - 1)) stx pw ltac:(lia) Tx ltac:(lia) W4 Px) as Cx. pose proof (spans_count (t_y0 T) (t_y1 T) (sy (par T c)) (snd comp) 0 (ey (par T c) (n - 1)) sty ph ltac:(lia) Ty ltac:(lia) W5 Py) as Cy.
      assert (Lv : level (par T c) (n - 1) = 0) by (unfold level; fold n; lia).
      assert (Cw : pw = wide T c (n - 1)) by (unfold wide; rewrite Lv; exact Cx). assert (Ch : ph = high T c (n - 1)) by (unfold high; rewrite Lv; exact Cy).
      assert (GO : forall o p, (o = 0 \/ o = 1) -> (p = 0 \/ p = 1) -> o + p = 1 -> (o = 1 -> fst (fst comp) <> 0) -> (p = 1 -> fst (snd comp) <> 0) -> exists k, valid T (0, n - 1, c, k) /\ area_want T win (0, n - 1, c, k) = true).
      { intros o p Ho Hp Hop Zo Zp. destruct (lone_axis n (n - 1) (fst comp) (fst w) o (ex (par T c) (n - 1)) stx pw ltac:(lia) eq_refl EX X1 Xe Ho Zo ltac:(lia) Px) as [P1 I1]. destruct (lone_axis n (n - 1) (snd comp) (snd w) p (ey (par T c) (n - 1)) sty ph ltac:(lia) eq_refl EY Y1 Ye Hp Zp ltac:(lia) Py) as [P2 I2].
        exists 0. split; [unfold valid; fold n; split; [lia |]; split; [exact Hc |]; split; [lia | rewrite <- Cw, <- Ch; nia] |].
        unfold area_want. destruct (Z.ltb_spec 0 (t_layers T)); [| lia]. fold n. destruct (Z.ltb_spec (n - 1) n); [| lia]. cbn [andb]. rewrite Ec, Ew. apply existsb_exists. exists (o + 2 * p - 1).
        split; [unfold band_numbers; destruct (Z.eqb_spec (n - 1) 0); [lia |]; destruct Ho as [-> | ->], Hp as [-> | ->]; try lia; cbn; auto |].
        unfold prec_rect. fold n. unfold GeomModel.res_rect, band_rect. cbn [fst snd]. replace (n - 1 - (n - 1)) with 0 by lia. rewrite Px, Py. destruct (group_axis (n - 1) stx (ex (par T c) (n - 1))) as [gx ex']. destruct (group_axis (n - 1) sty (ey (par T c) (n - 1))) as [gy ey'].
        assert (OF : band_offsets (o + 2 * p - 1) = (o, p)) by (destruct Ho as [-> | ->], Hp as [-> | ->]; try lia; reflexivity). rewrite OF. cbn [fst snd]. rewrite Z.mod_0_l, Z.div_0_l by lia.
        unfold orient. destruct (Z.eqb_spec (n - 1) 0); [lia |]. unfold interest. cbn [fst snd]. replace (o + 2 * p - 1 + 1) with (o + 2 * p) by lia.
        assert (OL : Z.land (o + 2 * p) 1 = o /\ Z.shiftr (o + 2 * p) 1 = p) by (destruct Ho as [-> | ->], Hp as [-> | ->]; try lia; split; reflexivity). destruct OL as [-> ->]. rewrite I1, I2. reflexivity. }
      destruct (Z.eq_dec (fst (fst comp)) 0) as [Z0 | Z0]; [| apply (GO 1 0); auto; lia]. destruct (Z.eq_dec (fst (snd comp)) 0) as [Z1 | Z1]; [| apply (GO 0 1); auto; lia].
      exfalso. apply NL. destruct comp as [[a b] [a' b']]. cbn [fst snd] in *. subst. reflexivity.
  Qed.

  (** The resolution that is decoded. *)
  Lemma decoded_top : fst (fst comp) < snd (fst comp) -> fst (snd comp) < snd (snd comp) -> (n = 1 \/ comp <> ((0, 1), (0, 1))) -> resno_decoded T (area_want T win) ps c = n - 1.
  Proof.
    intros Nx Ny NL. assert (PV : Forall (valid T) ps) by (apply Forall_forall; intros q I; apply HP, I).
    assert (NN : forall c', 0 <= c' < Z.of_nat (length (t_comps T)) -> 1 <= nres (par T c') < 2 ^ 32 /\ 0 <= 0 < nres (par T c')).
    { intros c' H. destruct (tile_comp_some T c' HW H) as (comp' & E' & _). destruct (comp_extents T c' comp' HW H E') as (_ & _ & N'). lia. }
    destruct (noted T (area_want T win) ps (fun _ => true, fun _ => 0) PV) as (I1 & I2 & _). cbn [snd] in I1, I2. fold (resno_decoded T (area_want T win) ps) in I1, I2.
    pose proof (I1 c ltac:(lia) (fun H => proj1 (NN c H)) Hc ltac:(apply NN, Hc)) as B. fold n in B. destruct (Z.eq_dec n 1) as [E1 | E1]; [lia |]. pose proof (NN c Hc) as Nc. fold n in Nc.
    destruct (top_wanted ltac:(lia) Nx Ny ltac:(destruct NL; [lia | assumption])) as (k & V & Wt). pose proof (I2 0 (n - 1) c k (proj2 (HP _) V) Wt NN). lia.
  Qed.

  Lemma decoded_none : ~ (fst (fst comp) < snd (fst comp) /\ fst (snd comp) < snd (snd comp)) -> resno_decoded T (area_want T win) ps c = 0.
  Proof.
    intros Emp. assert (PV : Forall (valid T) ps) by (apply Forall_forall; intros q I; apply HP, I).
    destruct (noted T (area_want T win) ps (fun _ => true, fun _ => 0) PV) as (_ & _ & I3). cbn [snd] in I3. fold (resno_decoded T (area_want T win) ps) in I3. apply I3.
    intros l r k I. apply HP in I. destruct I as (_ & _ & Vr & Vk). assert (RR : resolution T c r) by (split; assumption).
    destruct (tile_comp_some T c HW Hc) as (comp' & E' & (Tx0 & Tx1 & TX) & (Ty0 & Ty1 & TY)). assert (comp' = comp) as -> by congruence. destruct (wf_params T c r HW RR) as (W1 & W2 & W3 & W4 & W5).
    assert (Lv : 0 <= level (par T c) r) by (unfold level; lia). pose proof (Z.pow_pos_nonneg 2 (level (par T c) r) ltac:(lia) Lv) as P.
    assert (ES : forall t0 t1 d e, 1 <= d -> ceil_of t0 d (fst e) -> ceil_of t1 d (snd e) -> fst e = snd e -> forall Q, spans t0 t1 (d * 2 ^ level (par T c) r) Q = 0).
    { intros t0 t1 d e Hd C0 C1 Ee Q. unfold spans. rewrite (proj2 (Z.ltb_ge _ _)); [reflexivity |].
      assert (ST : forall t x, ceil_of t d x -> cdiv t (d * 2 ^ level (par T c) r) = cdiv x (2 ^ level (par T c) r)).
      { intros t x C. apply (MathProps.ceil_unique t (d * 2 ^ level (par T c) r)); [nia | apply cdiv_ceil; nia |]. eapply ceil_stage; [lia | lia | exact C | apply cdiv_ceil; lia]. }
      rewrite (ST _ _ C0), (ST _ _ C1), Ee. lia. }
    assert (wide T c r * high T c r = 0); [| lia]. unfold wide, high. destruct TX as [TXa TXb], TY as [TYa TYb].
    destruct (Z.eq_dec (fst (fst comp)) (snd (fst comp))) as [Q | Q]; [rewrite (ES (t_x0 T) (t_x1 T) (sx (par T c)) (fst comp) ltac:(lia) Tx0 Tx1 Q); lia |].
    rewrite (ES (t_y0 T) (t_y1 T) (sy (par T c)) (snd comp) ltac:(lia) Ty0 Ty1 ltac:(lia)). lia.
  Qed.

  (** ** Blocks of the window *)

  Context (ds2 : pl -> list dband) (d m : mem).
  Hypothesis (H2 : forall p, good p -> ds2 p = ds p) (HM : show_comp psize size T S ds c d = Some m) (HNS : Z.land (s_sty (S c)) 64 = 0).

  Lemma all_jobs : exists l, show_blocks (S c) comp n l d = Some m /\ forall j, In j l <-> is_job psize size T S c comp ds j.
  Proof.
    unfold show_comp in HM. rewrite Ec in HM.
    match type of HM with match all_some (map ?f ?l) with _ => _ end = _ => destruct (all_some (map f l)) as [ls |] eqn:EL; [| discriminate HM] end.
    exists (concat ls). split; [exact HM |]. intros [[[r b] blk] e]. rewrite (blocks_in psize size T S c comp (fun r bs => res_blocks r c bs ds) ls Hc EL). unfold is_job. split.
    - intros (r0 & bs & Hr & Eb & I). apply res_blocks_in in I. destruct I as (-> & i & k & q & I). exists bs, i, k, q. auto.
    - intros (bs & i & k & q & Hr & Eb & I). exists r, bs. split; [exact Hr |]. split; [exact Eb |]. apply res_blocks_in. split; [reflexivity |]. exists i, k, q. exact I.
  Qed.

  Lemma window_jobs : exists l, area_jobs false psize size T S comp w ds2 c = Some l /\
    (forall j, In j l -> is_job psize size T S c comp ds j) /\
    (forall r o p u v, 0 <= r < n -> band_bits r o p -> wanted (fst comp) (fst w) n r o u -> wanted (snd comp) (snd w) n r p v ->
      exists b blk e, In (r, b, blk, e) l /\ orient r (b_no b) = o + 2 * p /\ inside blk u v).
  Proof.
    unfold area_jobs.
    match goal with |- context [all_some (map ?f ?l)] => assert (TT : all_some (map f l) <> None) end.
    { apply all_some_total. intros r I. unfold upto in I. apply in_map_iff in I. destruct I as (n0 & <- & I). apply in_seq in I. pose proof (proj2 (proj2 HU) c (Z.of_nat n0) comp ltac:(split; [exact Hc | lia]) Ec) as U. destruct (res_bands psize size (par T c) (S c) comp (Z.of_nat n0)); [discriminate | contradiction]. }
    match type of TT with all_some (map ?f ?l) <> None => destruct (all_some (map f l)) as [ls |] eqn:EL; [| contradiction] end. clear TT.
    exists (concat ls). split; [reflexivity |]. pose proof (blocks_in psize size T S c comp (fun r bs => area_blocks false (nres (par T c)) r c w bs ds2) ls Hc EL) as BI. split.
    - intros [[[r b] blk] e] I. apply BI in I. destruct I as (r0 & bs & Hr & Eb & I). apply area_blocks_in in I. destruct I as (-> & _ & _ & i & k & q & (d0 & j & Ei & Ek & Ed & Ej & Ee) & HI).
      pose proof (bands_ok psize size T S c r0 comp bs HW HS Hr Ec (proj1 HU) (proj1 (proj2 HU)) Eb) as BO. rewrite Forall_forall in BO. pose proof (BO b (nth_error_In _ _ Ei)) as B.
      rewrite (H2 _ (good_of r0 b k q Hr B Ek HI)) in Ed. exists bs, i, k, q. split; [exact Hr |]. split; [exact Eb |]. exists d0, j. auto.
    - intros r o p u v Hr HB Wu Wv. destruct (wanted_block r o p u v Hr HB Wu Wv) as (bs & i & b & k & q & blk & RR & Eb & Or & B & Hi & Hq & Hj & Hblk & I1 & I2).
      rewrite <- Or in I1, I2. apply In_nth_error in Hj. destruct Hj as [j Hj]. destruct (found_all r bs i b k q RR Eb Hi Hq) as (d0 & Ed & Ld).
      destruct (nth_error (db_blocks d0) j) as [e |] eqn:Ee. 2:{ apply nth_error_None in Ee. rewrite Ld in Ee. apply nth_error_None in Ee. congruence. }
      exists b, blk, e. split; [| split; [exact Or | exact Hblk]]. apply BI. exists r, bs. split; [exact RR |]. split; [exact Eb |]. apply area_blocks_in. split; [reflexivity |]. split; [exact I2 |]. split.
      + assert (At : block_at (b_precs b) k j blk) by (exists q; auto).
        destruct (block_place _ _ _ _ _ _ _ _ _ _ _ (bo_set _ _ _ _ _ _ _ _ B) (bo_in _ _ _ _ _ _ _ _ B) (bo_precs _ _ _ _ _ _ _ _ B) (bo_some _ _ _ _ _ _ _ _ B) At) as (W & H & Sw & Sh & _). rewrite W, H.
        cbn [orb]. apply negb_true_iff, orb_false_iff. split; apply Z.eqb_neq; lia.
      + exists i, k, q. split; [| exact I1]. exists d0, j. rewrite (H2 _ (good_of r b k q RR B Hq I1)). auto.
  Qed.

  Lemma window_comp : forall alloc buf mm tmp, width (snd comp) <= 2 ^ 30 ->
    match area_comp alloc psize size T S comp w n buf ds2 c mm with
    | None => ~ (forall i, alloc i = true)
    | Some m' => forall x y, inside w x y -> m' ((y - fst (snd w)) * width (fst w) + (x - fst (fst w))) =
        fst (dwt_decode_tile (width (fst comp)) (resolutions (as_rect comp) (Z.to_nat n)) (m, tmp)) ((y - fst (snd comp)) * width (fst comp) + (x - fst (fst comp)))
    end.
  Proof.
    intros alloc buf mm tmp HH. destruct (comp_extents T c comp HW Hc Ec) as (X & Y & N). fold n in N. destruct (HS c Hc) as (_ & _ & _ & _ & _ & S6). specialize (S6 comp Ec).
    destruct window_jobs as (l & EL & IL & CV). destruct all_jobs as (l1 & EM & I1). unfold area_comp. rewrite EL. fold n.
    assert (DN : forall r b blk e, In (r, b, blk, e) l -> decode_block (block_w blk) (block_h blk) (orient r (b_no b)) (s_roi (S c)) (s_sty (S c)) e <> None).
    { intros r b blk e I. apply (show_blocks_some T S c comp l1 d m EM r b blk e). apply I1, IL, I. }
    assert (TT : all_some (map (area_block (S c)) l) <> None).
    { apply all_some_total. intros [[[r b] blk] e] I. unfold area_block. specialize (DN r b blk e I). destruct (decode_block _ _ _ _ _ e); [discriminate | contradiction]. }
    destruct (all_some (map (area_block (S c)) l)) as [bs |] eqn:EA; [clear TT | contradiction]. apply all_some_map in EA.
    assert (OK : Forall (block_ok (width (fst comp)) m comp n n) bs).
    { apply Forall_forall. intros B I. assert (exists j, In j l /\ area_block (S c) j = Some B) as ([[[r b] blk] e] & J & Q).
      { clear - EA I. induction EA as [| j B' l bs E EA IH]; [destruct I |]. destruct I as [<- | I]; [exists j; split; [left; reflexivity | exact E] |]. destruct (IH I) as (j' & J & Q). exists j'. split; [right; exact J | exact Q]. }
      unfold area_block in Q. destruct (decode_block (block_w blk) (block_h blk) (orient r (b_no b)) (s_roi (S c)) (s_sty (S c)) e) as [v |] eqn:Ev; [| discriminate Q]. apply some_inj in Q. subst B.
      pose proof (IL _ J) as JB. pose proof (proj2 (I1 _) JB) as J1. destruct (job_band psize size T S c comp ds HW HS HU Ec r b blk e JB) as (RR & BO & k & j & At).
      destruct (block_bounds _ _ _ _ _ _ _ _ k j blk HW Ec RR BO At) as (K1 & K2 & K3 & K4 & Ins). destruct (ori_bits r (b_no b) (bo_in _ _ _ _ _ _ _ _ BO)) as [BB Or]. fold n in Ins.
      pose proof (Ins (fst (fst blk)) (fst (snd blk)) ltac:(unfold inside, GeomProofs.within; lia)) as P. pose proof (Ins (snd (fst blk) - 1) (snd (snd blk) - 1) ltac:(unfold inside, GeomProofs.within; lia)) as Q.
      rewrite (band_rect_sb comp n r (b_no b) X Y N (proj2 RR) (bo_in _ _ _ _ _ _ _ _ BO)) in P, Q. unfold inside, GeomProofs.within in P, Q. cbn [fst snd] in P, Q.
      unfold block_ok. cbn [k_res k_band k_rect k_data]. exists (ori_x r (b_no b)), (ori_y r (b_no b)). split; [exact Or |]. split; [exact (proj2 RR) |]. split; [exact BB |]. split; [lia |]. split; [lia |]. split; [lia |]. split; [lia |].
      intros u v0 Iuv. unfold inside_rect in Iuv. cbn [fst snd] in Iuv. rewrite <- (home_place comp n r (b_no b) u v0 X Y N (proj2 RR) (bo_in _ _ _ _ _ _ _ _ BO)).
      pose proof (shown_at psize size T S c comp ds HW HS HU Hc Ec l1 d m (fun j H => proj1 (I1 j) H) EM r b blk e v J1 Ev u v0 Iuv) as SA. fold n in SA. rewrite SA. unfold block_data, output, width. rewrite HNS. reflexivity. }
    assert (FL : filter (fun b => k_res b <? n) bs = bs).
    { clear - OK. induction OK as [| B bs HB OK IH]; [reflexivity |]. cbn [filter]. destruct HB as (o & p & _ & R & _). destruct (Z.ltb_spec (k_res B) n); [| lia]. rewrite IH. reflexivity. }
    rewrite FL. clear FL.
    assert (CO : cover comp w n n bs).
    { intros r o p u v Hr HB Wu Wv. destruct (CV r o p u v Hr HB Wu Wv) as (b & blk & e & J & Or & Hblk).
      clear - EA J Or Hblk. induction EA as [| j B l bs E EA IH]; [destruct J |]. destruct J as [-> | J].
      - unfold area_block in E. destruct (decode_block _ _ _ _ _ e) as [v0 |]; [| discriminate E]. apply some_inj in E. subst B. eexists. split; [left; reflexivity |]. cbn [k_res k_band k_rect]. split; [reflexivity |]. split; [exact Or | exact Hblk].
      - destruct (IH J) as (B' & I' & Q). exists B'. split; [right; exact I' | exact Q]. }
    assert (U0 : forall a, up a (n - n) = a) by (intros a; unfold up; rewrite Z.sub_diag, Z.pow_0_r, Z.div_1_r; lia).
    pose proof (c64_window alloc comp w n n bs m tmp buf mm EX EY ltac:(lia) ltac:(lia)) as G. cbn zeta in G. rewrite !U0 in G. fold (width (fst comp)) (width (snd comp)) in G. specialize (G S6 HH OK CO).
    destruct (decode_partial_tile alloc comp w n n bs buf mm) as [m' |]; [| exact G]. destruct G as [G _]. intros x y [Ix Iy]. unfold GeomProofs.within in Ix, Iy.
    pose proof (G x y Ix Iy) as Gx. rewrite lowest_all in Gx by lia. exact Gx.
  Qed.
  Lemma empty_comp : forall alloc buf mm, ~ (fst (fst comp) < snd (fst comp) /\ fst (snd comp) < snd (snd comp)) -> area_comp alloc psize size T S comp w 1 buf ds2 c mm <> None.
  Proof.
    intros alloc buf mm Emp. destruct (comp_extents T c comp HW Hc Ec) as (X & Y & N). fold n in N. destruct window_jobs as (l & EL & IL & _). destruct all_jobs as (l1 & EM & I1). unfold area_comp. rewrite EL. fold n.
    assert (TT : all_some (map (area_block (S c)) l) <> None).
    { apply all_some_total. intros [[[r b] blk] e] I. unfold area_block. pose proof (show_blocks_some T S c comp l1 d m EM r b blk e (proj2 (I1 _) (IL _ I))) as DN. destruct (decode_block _ _ _ _ _ e); [discriminate | contradiction]. }
    destruct (all_some (map (area_block (S c)) l)) as [bs |]; [clear TT | contradiction]. unfold decode_partial_tile. cbv zeta. unfold GeomModel.res_rect, res_axis. cbn [fst snd]. unfold extent in X, Y.
    destruct (Z.eq_dec (fst (fst comp)) (snd (fst comp))) as [Q | Q]; [rewrite Q, Z.eqb_refl; discriminate |]. assert (Q' : fst (snd comp) = snd (snd comp)) by lia. rewrite Q', Z.eqb_refl, orb_true_r. discriminate.
  Qed.

  Lemma whole_jobs : w = comp -> forall mm, match area_jobs true psize size T S comp w ds2 c with None => None | Some l => show_blocks (S c) comp n l mm end = show_comp psize size T S ds c mm.
  Proof.
    intros Ewc mm. unfold area_jobs, show_comp. rewrite Ec. destruct (comp_extents T c comp HW Hc Ec) as (X & Y & N). fold n in N.
    assert (EQ : map (fun r => match res_bands psize size (par T c) (S c) comp r with Some bs => Some (area_blocks true (nres (par T c)) r c w bs ds2) | None => None end) (upto (nres (par T c))) =
      map (fun r => match res_bands psize size (par T c) (S c) comp r with Some bs => Some (res_blocks r c bs ds) | None => None end) (upto (nres (par T c)))).
    { apply map_ext_in. intros r I. unfold upto in I. apply in_map_iff in I. destruct I as (r0 & Er & I). apply in_seq in I. assert (RR : resolution T c r) by (split; [exact Hc | lia]). clear r0 Er I.
      destruct (res_bands psize size (par T c) (S c) comp r) as [bs |] eqn:Eb; [| reflexivity]. f_equal. unfold area_blocks, res_blocks.
      pose proof (bands_ok psize size T S c r comp bs HW HS RR Ec (proj1 HU) (proj1 (proj2 HU)) Eb) as BO. rewrite Forall_forall in BO.
      apply flat_map_ext_in. intros [i b] Ib. apply numbered_in in Ib. pose proof (BO b (nth_error_In _ _ Ib)) as B. clear BO. apply flat_map_ext_in. intros [k q] Iq. apply numbered_in in Iq. fold n.
      assert (IN : forall blk, In blk (cblks q) -> interest n r (orient r (b_no b)) w blk = true /\ interest n r (orient r (b_no b)) w (prect q) = true).
      { intros blk J. apply In_nth_error in J. destruct J as [j Hj]. assert (At : block_at (b_precs b) k j blk) by (exists q; auto).
        destruct (block_bounds _ _ _ _ _ _ _ _ k j blk HW Ec RR B At) as (K1 & K2 & K3 & K4 & Ins). destruct (precinct_bounds _ _ _ _ _ _ _ _ k q HW Ec RR B Iq) as (Q1 & Q2 & Q3 & Q4).
        destruct (ori_bits r (b_no b) (bo_in _ _ _ _ _ _ _ _ B)) as [BB Or]. rewrite Or. fold n in Ins.
        assert (Hblk : inside blk (fst (fst blk)) (fst (snd blk))) by (unfold inside, GeomProofs.within; lia). pose proof (Ins _ _ Hblk) as P. rewrite (band_rect_sb comp n r (b_no b) X Y N (proj2 RR) (bo_in _ _ _ _ _ _ _ _ B)) in P. unfold inside, GeomProofs.within in P. cbn [fst snd] in P.
        assert (Wu : wanted (fst comp) (fst w) n r (ori_x r (b_no b)) (fst (fst blk))) by (rewrite Ewc; unfold wanted; lia). assert (Wv : wanted (snd comp) (snd w) n r (ori_y r (b_no b)) (fst (snd blk))) by (rewrite Ewc; unfold wanted; lia).
        split; [apply (point_interest comp w n r _ _ blk _ _ EX EY (proj2 RR) ltac:(lia) BB Wu Wv Hblk); lia |].
        apply (point_interest comp w n r _ _ (prect q) _ _ EX EY (proj2 RR) ltac:(lia) BB Wu Wv (block_in_precinct _ _ _ _ _ _ _ _ _ _ _ _ _ _ B Iq Hj Hblk)); assumption. }
      destruct (interest n r (orient r (b_no b)) w (prect q)) eqn:EI.
      - rewrite (H2 _ (good_of r b k q RR B Iq EI)). destruct (nth_error (ds (r, c, Z.of_nat k)) i) as [d0 |]; [| reflexivity]. clear EI. revert IN. generalize (db_blocks d0). induction (cblks q) as [| blk l IH]; intros es IN; [reflexivity |].
        destruct es as [| e es]; [reflexivity |]. cbn [combine map filter fst snd]. rewrite (proj1 (IN blk (or_introl eq_refl))). cbn [andb orb]. f_equal. apply IH. intros blk' J. apply IN. right. exact J.
      - destruct (cblks q) as [| blk l]; [destruct (nth_error (ds (r, c, Z.of_nat k)) i); reflexivity |]. destruct (IN blk (or_introl eq_refl)) as [_ Q]. discriminate Q. }
    rewrite EQ. destruct (all_some _); reflexivity.
  Qed.
  End Comp.
End Area.
