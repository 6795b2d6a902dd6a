(** A tile decoded for an area, against the same tile decoded whole. *)

From Coq Require Import ZArith List Bool Arith Lia ZifyNat.
From Verif Require Import I32 Ints Mem MathModel MathProps DwtModel DwtProps DwtTile MctModel ShiftModel ShiftProps SampleModel SampleProofs SparseModel WindowModel WindowSpec WindowAxis WindowProofs WindowTile WindowProps.
From Verif Require Import MathModel GeomModel GeomProofs GeomCover GeomProps PiModel PiSpec T2PacketModel T2PacketSkip T1Model T1Props CblkModel PacketsModel TileModel TileGeom TileProofs TileProps AreaModel AreaPackets AreaGeom AreaJobs AreaProofs AreaComp.
Import ListNotations.
Local Open Scope Z_scope.
Local Notation u32 := Ints.u32.
Local Notation rect := GeomModel.rect.
Local Notation within := GeomProofs.within.
Local Notation pl := PacketsModel.place.
Local Notation count := SampleModel.count.
Ltac Zify.zify_post_hook ::= idtac.

(** Where sample [(x, y)] is in a plane that holds [r]. *)
Definition pos (r : rect) (x y : Z) : Z := (y - fst (snd r)) * width (fst r) + (x - fst (fst r)).

Lemma pos_bound : forall r x y, inside r x y -> 0 <= pos r x y < width (fst r) * width (snd r).
Proof. intros r x y [Hx Hy]. unfold GeomProofs.within in *. unfold pos, width. nia. Qed.

(** ** Loops over components *)

Lemma loop_planes : forall n (f : Z -> mem -> option mem) d,
  match for_to 0 n (fun c o => match o with Some e => match f c (e c) with Some m => Some (upd_plane e c m) | None => None end | None => None end) (Some d) with
  | Some e => (forall c, 0 <= c < n -> f c (d c) = Some (e c)) /\ (forall c, ~ 0 <= c < n -> e c = d c)
  | None => exists c, 0 <= c < n /\ f c (d c) = None
  end.
Proof.
  intros n f d. destruct (Z.le_gt_cases n 0) as [L | L]; [rewrite for_empty by lia; split; [lia | reflexivity] |].
  set (P := fun (k : Z) (o : option planes_t) => match o with Some e => (forall c, 0 <= c < k -> f c (d c) = Some (e c)) /\ (forall c, ~ 0 <= c < k -> e c = d c) | None => exists c, 0 <= c < k /\ f c (d c) = None end).
  match goal with |- match ?F with _ => _ end => assert (G : P n F); [| exact G] end.
  apply (for_ind P); [lia | split; [lia | reflexivity] |]. intros k [e |] Hk; unfold P.
  - intros [A B]. rewrite (B k) by lia. destruct (f k (d k)) as [m |] eqn:E; [| exists k; split; [lia | exact E]]. unfold upd_plane. split.
    + intros c Hc. destruct (Z.eqb_spec c k) as [-> |]; [exact E | apply A; lia].
    + intros c Hc. destruct (Z.eqb_spec c k) as [-> |]; [lia | apply B; lia].
  - intros (c & Hc & E). exists c. split; [lia | exact E].
Qed.

Lemma shown_each : forall psize size T S ds d e, show_all psize size T S ds d = Some e ->
  (forall c, 0 <= c < count T -> show_comp psize size T S ds c (d c) = Some (e c)) /\ (forall c, ~ 0 <= c < count T -> e c = d c).
Proof.
  intros psize size T S ds d e E. pose proof (loop_planes (count T) (fun c m => show_comp psize size T S ds c m) d) as G. unfold show_all in E. cbv beta in G.
  match type of G with match ?F with _ => _ end => match type of E with ?F' = _ => change F' with F in E end end. rewrite E in G. exact G.
Qed.

Lemma planes_ext : forall T (f g : Z -> planes_t -> planes_t) d, (forall c e, 0 <= c < count T -> f c e = g c e) -> for_to 0 (count T) f d = for_to 0 (count T) g d.
Proof. intros T f g d H. apply for_ext. exact H. Qed.

(** ** The component transform *)

Lemma three_at : forall f n d d' c i i', 0 <= n -> 0 <= i < n -> forall n', 0 <= n' -> 0 <= i' < n' -> 0 <= c <= 2 ->
  (forall k, 0 <= k <= 2 -> d k i = d' k i') -> three f n d c i = three f n' d' c i'.
Proof.
  intros f n d d' c i i' Hn Hi n' Hn' Hi' Hc H. destruct (three_spec f n d Hn) as [A _]. destruct (three_spec f n' d' Hn') as [B _]. specialize (A i Hi). specialize (B i' Hi').
  rewrite (H 0), (H 1), (H 2) in A by lia. rewrite <- B in A. injection A as A0 A1 A2. assert (c = 0 \/ c = 1 \/ c = 2) as [-> | [-> | ->]] by lia; assumption.
Qed.

(** ** The level shift *)

Lemma dec_plane_at : forall shift lo hi w h m i, 0 <= h -> 0 < w -> 0 <= i < w * h -> dec_plane shift lo hi w h 0 m i = shift_dec shift lo hi (m i).
Proof.
  intros shift lo hi w h m i Hh Hw Hi. destruct (c37_decode_plane shift lo hi w h 0 m ltac:(lia) Hh ltac:(lia)) as [A _].
  pose proof (Z.div_mod i w ltac:(lia)) as DM. pose proof (Z.mod_pos_bound i w Hw) as MB. assert (0 <= i / w < h) by (split; [apply Z.div_pos; lia | apply Z.div_lt_upper_bound; lia]).
  specialize (A (i mod w) (i / w) MB ltac:(lia)). replace (i / w * (w + 0) + i mod w) with i in A by lia. exact A.
Qed.

Lemma area_shift_at : forall T I win dec d c, 0 <= c < count T ->
  area_shift T I win dec d c = match shown T win dec c with
    | None => d c
    | Some r => let w := u32 (width (fst r)) in let h := u32 (width (snd r)) in
        if (w =? 0) || (h =? 0) then d c else let '(lo, hi) := range_of (i_sgnd (I c)) (i_prec (I c)) in dec_plane (i_shift (I c)) lo hi w h 0 (d c)
    end.
Proof.
  intros T I win dec d c Hc. unfold area_shift.
  match goal with |- _ = ?R => set (V := R) end.
  match goal with |- for_to 0 _ ?F d c = _ => set (f := F) end.
  assert (G : (fun (k : Z) (e : planes_t) => (c < k -> e c = V) /\ (k <= c -> e c = d c)) (count T) (for_to 0 (count T) f d)); [| apply (proj1 G); lia].
  apply for_ind; [lia | split; [lia | reflexivity] |]. intros k e Hk [A B].
  assert (ST : f k e c = if c =? k then match shown T win dec c with
    | None => e c
    | Some r => let w := u32 (width (fst r)) in let h := u32 (width (snd r)) in
        if (w =? 0) || (h =? 0) then e c else let '(lo, hi) := range_of (i_sgnd (I c)) (i_prec (I c)) in dec_plane (i_shift (I c)) lo hi w h 0 (e c)
    end else e c).
  { unfold f. destruct (Z.eqb_spec c k) as [-> | Ne].
    - destruct (shown T win dec k) as [r |]; [| reflexivity]. cbv zeta. destruct ((u32 (width (fst r)) =? 0) || (u32 (width (snd r)) =? 0)); [reflexivity |]. destruct (range_of (i_sgnd (I k)) (i_prec (I k))) as [lo hi]. unfold upd_plane. rewrite Z.eqb_refl. reflexivity.
    - destruct (shown T win dec k) as [r |]; [| reflexivity]. cbv zeta. destruct ((u32 (width (fst r)) =? 0) || (u32 (width (snd r)) =? 0)); [reflexivity |]. destruct (range_of (i_sgnd (I k)) (i_prec (I k))) as [lo hi]. unfold upd_plane. destruct (Z.eqb_spec c k); [contradiction | reflexivity]. }
  rewrite ST. destruct (Z.eqb_spec c k) as [-> | Ne].
  - split; [| lia]. intros _. rewrite (B ltac:(lia)). reflexivity.
  - split; intros H; [apply A; lia | apply B; lia].
Qed.

Lemma whole_axis_eq : forall e w, extent e -> extent_in e w -> whole_axis e w = true -> w = e.
Proof.
  intros [a b] [a' b'] [E1 E2] (X1 & X2 & X3 & X4) H. cbn [fst snd] in *. unfold whole_axis in H. cbn [fst snd] in H. rewrite !andb_true_iff in H. destruct H as [[_ H1] H2].
  apply Z.eqb_eq in H1, H2. rewrite (u32_id a) in H1 by lia. rewrite (u32_id b) in H2 by lia. rewrite u32_id in H1 by lia. rewrite u32_id in H2 by lia. f_equal; lia.
Qed.

Section Tile.
  Context (psize size : Z) (T : tile) (S : Z -> style) (I : Z -> info) (mct : bool) (csty : Z) (win : rect) (ps : list packet) (data rest : list Z) (ds : pl -> list dband).
  Hypothesis (HW : wf T) (HS : sizes_ok T S) (HU : sets_up psize size T S) (HG : grids_up T) (HN : not_lone T) (HL : 1 <= t_layers T) (HO : overlaps T win)
    (HM : mct_ok T mct) (HT : forall c comp, 0 <= c < count T -> tile_comp T c = Some comp -> width (snd comp) <= 2 ^ 30) (HH : forall c, 0 <= c < count T -> Z.land (s_sty (S c)) 64 = 0)
    (HP : forall q, In q ps <-> valid T q) (HD : Z.of_nat (length data) < 2 ^ 32)
    (HR : read_packets (fun c => s_sty (S c)) csty (fun _ => true) (or_none (dec_place psize size T S)) ps data = Some (ds, rest)).
  Let dec := resno_decoded T (area_want T win) ps.
  Definition filled (comp : rect) : Prop := fst (fst comp) < snd (fst comp) /\ fst (snd comp) < snd (snd comp).

  Lemma fact : forall c, 0 <= c < count T -> exists comp w, tile_comp T c = Some comp /\ comp_window T win c = Some w /\ extent_in (fst comp) (fst w) /\ extent_in (snd comp) (snd w) /\
    extent (fst comp) /\ extent (snd comp) /\ 1 <= nres (par T c) <= 33 /\ (forall x y, inside w x y -> inside comp x y) /\
    (filled comp -> dec c = nres (par T c) - 1) /\ (~ filled comp -> dec c = 0).
  Proof.
    intros c Hc. destruct (tile_comp_some T c HW Hc) as (comp & Ec & _). destruct (window_spec T win c comp HW HO Hc Ec) as (w & Ew & EX & EY & IW). destruct (comp_extents T c comp HW Hc Ec) as (X & Y & N).
    exists comp, w. split; [exact Ec |]. split; [exact Ew |]. split; [exact EX |]. split; [exact EY |]. split; [exact X |]. split; [exact Y |]. split; [exact N |]. split; [intros x y H; apply (IW x y), H |]. split.
    - intros [F1 F2]. apply (decoded_top psize size T S win ps data HW HS HU HG HL HP c comp w Hc Ec Ew EX EY F1 F2). destruct (HN c Hc) as [E | E]; [left; exact E | right; intros Q; apply E; rewrite <- Q; exact Ec].
    - intros F. exact (decoded_none T win ps data HW HP c comp Hc Ec F).
  Qed.

  Lemma filled_dec : forall comp, {filled comp} + {~ filled comp}.
  Proof. intros [[a b] [a' b']]. unfold filled. cbn [fst snd]. destruct (Z_lt_dec a b), (Z_lt_dec a' b'); [left | right | right | right]; tauto. Qed.

  Lemma inside_filled : forall r x y, inside r x y -> filled r.
  Proof. intros r x y [A B]. unfold GeomProofs.within in *. unfold filled. lia. Qed.

  (** Planes that agree on the area. *)
  Definition agree (a2 a1 : planes_t) : Prop := forall c comp w, 0 <= c < count T -> tile_comp T c = Some comp -> comp_window T win c = Some w -> forall x y, inside w x y -> a2 c (pos w x y) = a1 c (pos comp x y).

  Lemma first_three : mct = true -> 3 <= count T /\ exists comp w n k, forall c, 0 <= c <= 2 -> tile_comp T c = Some comp /\ comp_window T win c = Some w /\ nres (par T c) = n /\ dec c = k.
  Proof.
    intros Em. destruct (HM Em) as [C3 Q]. split; [exact C3 |]. destruct (fact 0 ltac:(lia)) as (comp & w & Ec & Ew & _ & _ & _ & _ & _ & _ & D1 & D0). exists comp, w, (nres (par T 0)), (dec 0).
    intros c Hc. destruct (Q c Hc) as (Q1 & Q2 & Q3). assert (Ec' : tile_comp T c = Some comp) by (unfold tile_comp in *; rewrite Q1, Q2; exact Ec). split; [exact Ec' |].
    split; [unfold comp_window in *; rewrite Ec', Q1, Q2; rewrite Ec in Ew; exact Ew |]. split; [exact Q3 |].
    destruct (fact c ltac:(lia)) as (comp' & w' & Ec'' & _ & _ & _ & _ & _ & _ & _ & D1' & D0'). assert (comp' = comp) as -> by congruence.
    destruct (filled_dec comp) as [F | F]; [rewrite D1, D1', Q3 by exact F; reflexivity | rewrite D0, D0' by exact F; reflexivity].
  Qed.

  Lemma mct_agree : forall a2 a1 b1, agree a2 a1 -> mct_out T mct a1 = Some b1 ->
    (exists b2, area_mct T mct win dec a2 = Some b2 /\ agree b2 b1) /\
    ((forall c comp w, 0 <= c < count T -> tile_comp T c = Some comp -> comp_window T win c = Some w -> w = comp) -> exists b2, whole_mct T mct dec a2 = Some b2 /\ agree b2 b1).
  Proof.
    intros a2 a1 b1 AG E1. unfold area_mct, whole_mct, mct_out in *. destruct (bool_dec mct true) as [Em | Em]; [| apply not_true_is_false in Em; rewrite Em in E1 |- *; cbn [negb andb] in E1 |- *; apply some_inj in E1; subst b1; split; [| intros _]; exists a2; split; (reflexivity || exact AG)].
    destruct (first_three Em) as (C3 & comp & w & n & k & F3). rewrite Em in E1 |- *. cbn [negb andb] in E1 |- *. destruct (Z.ltb_spec (count T) 3); [lia |]. destruct (Z.leb_spec 3 (count T)); [| lia].
    destruct (F3 0 ltac:(lia)) as (T0 & W0 & N0 & K0). destruct (F3 1 ltac:(lia)) as (T1 & W1 & N1 & K1). destruct (F3 2 ltac:(lia)) as (T2 & W2 & N2 & K2).
    unfold samples_of, shown in *. rewrite T0, T1, T2, N0, N1, N2 in E1. rewrite W0, W1, W2, N0, N1, N2, K0, K1, K2. rewrite !Z.eqb_refl in E1 |- *. cbn [andb] in E1 |- *. apply some_inj in E1. subst b1.
    destruct (fact 0 ltac:(lia)) as (comp' & w' & Ec & Ew & EX & EY & X & Y & N & IW & D1 & D0). assert (comp' = comp) as -> by congruence. assert (w' = w) as -> by congruence. rewrite N0 in *. rewrite K0 in D1, D0.
    destruct EX as (X1 & X2 & X3 & X4), EY as (Y1 & Y2 & Y3 & Y4).
    assert (NW : 0 <= width (fst comp) * width (snd comp)) by (unfold width; unfold extent in X, Y; nia).
    assert (G : forall N2, 0 <= N2 -> (filled w -> N2 = width (fst w) * width (snd w)) -> agree (three (rct_inv i32) N2 a2) (three (rct_inv i32) (width (fst comp) * width (snd comp)) a1)).
    { intros M HM0 HMW c cc ww Hc Ecc Eww x y Iw. destruct (Z_le_dec c 2) as [L | L].
      - destruct (F3 c ltac:(lia)) as (Tc & Wc & _). assert (cc = comp) as -> by congruence. assert (ww = w) as -> by congruence.
        apply three_at; [exact HM0 | rewrite (HMW (inside_filled _ _ _ Iw)); apply pos_bound, Iw | exact NW | apply pos_bound, (IW x y Iw) | lia |].
        intros j Hj. destruct (F3 j Hj) as (Tj & Wj & _). apply (AG j comp w ltac:(lia) Tj Wj x y Iw).
      - rewrite (proj2 (three_spec (rct_inv i32) M a2 HM0)) by lia. rewrite (proj2 (three_spec (rct_inv i32) _ a1 NW)) by lia. apply (AG c cc ww Hc Ecc Eww x y Iw). }
    split.
    - eexists. split; [reflexivity |]. apply G; [apply Z.mul_nonneg_nonneg; apply u32_range |].
      intros FW. assert (FC : filled comp) by (unfold filled in *; lia). rewrite (D1 FC). unfold area_of. cbn [fst snd]. rewrite !win_axis_top by lia. unfold filled in FW. rewrite !u32_id by (unfold width; lia). reflexivity.
    - intros WC. rewrite T0, T1, T2, !Z.eqb_refl. cbn [andb negb]. eexists. split; [reflexivity |]. apply G; [exact NW |]. intros _. rewrite (WC 0 comp w ltac:(lia) T0 W0). reflexivity.
  Qed.

  (** The level shift keeps planes in agreement. *)
  Lemma shift_agree : forall b2 b1, agree b2 b1 -> agree (area_shift T I win dec b2) (shift_out T I b1) /\
    ((forall c comp w, 0 <= c < count T -> tile_comp T c = Some comp -> comp_window T win c = Some w -> w = comp) -> agree (whole_shift T I dec b2) (shift_out T I b1)).
  Proof.
    intros b2 b1 AG.
    assert (ONE : forall c comp x y, 0 <= c < count T -> tile_comp T c = Some comp -> inside comp x y ->
      let '(lo, hi) := range_of (i_sgnd (I c)) (i_prec (I c)) in shift_out T I b1 c (pos comp x y) = shift_dec (i_shift (I c)) lo hi (b1 c (pos comp x y))).
    { intros c comp x y Hc Ec Ic. destruct (fact c Hc) as (comp' & w & Ec' & _ & _ & _ & X & Y & _). assert (comp' = comp) as -> by congruence. unfold extent in X, Y. pose proof (inside_filled _ _ _ Ic) as [F1 F2].
      destruct (range_of (i_sgnd (I c)) (i_prec (I c))) as [lo hi] eqn:ER. unfold shift_out. rewrite (each_plane_spec T _ b1 c comp Hc Ec). cbv zeta. rewrite ER. unfold width at 1 2. destruct (Z.eqb_spec (snd (fst comp) - fst (fst comp)) 0); [lia |]. destruct (Z.eqb_spec (snd (snd comp) - fst (snd comp)) 0); [lia |]. cbn [orb].
      apply dec_plane_at; [unfold width; lia | unfold width; lia | apply pos_bound, Ic]. }
    split; [| intros WC]; intros c comp w Hc Ec Ew x y Iw; destruct (fact c Hc) as (comp' & w' & Ec' & Ew' & EX & EY & X & Y & N & IW & D1 & _);
      (assert (comp' = comp) as -> by congruence); (assert (w' = w) as -> by congruence); specialize (ONE c comp x y Hc Ec (IW x y Iw)); specialize (AG c comp w Hc Ec Ew x y Iw);
      pose proof (inside_filled _ _ _ Iw) as FW; (assert (FC : filled comp) by (unfold filled, extent_in in *; lia)); specialize (D1 FC); destruct (range_of (i_sgnd (I c)) (i_prec (I c))) as [lo hi] eqn:ER; rewrite ONE, <- AG; unfold extent in X, Y; unfold filled in FW, FC; unfold extent_in in EX, EY.
    - rewrite area_shift_at by exact Hc. unfold shown. rewrite Ew, D1, !win_axis_top by lia. cbv zeta. cbn [fst snd]. rewrite ER. rewrite !u32_id by (unfold width; lia). unfold width at 1 2. destruct (Z.eqb_spec (snd (fst w) - fst (fst w)) 0); [lia |]. destruct (Z.eqb_spec (snd (snd w) - fst (snd w)) 0); [lia |]. cbn [orb].
      apply dec_plane_at; [unfold width; lia | unfold width; lia | apply pos_bound, Iw].
    - unfold whole_shift. rewrite (each_plane_spec T _ b2 c comp Hc Ec). rewrite D1, ER. pose proof (WC c comp w Hc Ec Ew) as Q. subst w.
      assert (RE : GeomModel.res_rect comp (nres (par T c)) (nres (par T c) - 1) = comp).
      { unfold GeomModel.res_rect, res_axis. replace (nres (par T c) - 1 - (nres (par T c) - 1)) with 0 by lia. rewrite <- !ceil_same by lia. rewrite !ceildivpow2_eq by lia. rewrite Z.pow_0_r, !Z.div_1_r. destruct comp as [[a b] [a' b']]. cbn [fst snd]. f_equal; f_equal; lia. }
      rewrite RE. cbv zeta. rewrite Z.sub_diag. change (u32 0) with 0. unfold width at 1 2. destruct (Z.eqb_spec (snd (fst comp) - fst (fst comp)) 0); [lia |]. destruct (Z.eqb_spec (snd (snd comp) - fst (snd comp)) 0); [lia |]. cbn [orb].
      apply dec_plane_at; [unfold width; lia | unfold width; lia | apply pos_bound, Iw].
  Qed.

  Lemma all_comps_true : forall f, all_comps T f = true <-> forall c, 0 <= c < count T -> f c = true.
  Proof.
    intros f. unfold all_comps. rewrite forallb_forall. split; intros H c Hc.
    - apply H. unfold upto. apply in_map_iff. exists (Z.to_nat c). split; [lia | apply in_seq; lia].
    - apply H. unfold upto in Hc. apply in_map_iff in Hc. destruct Hc as (k & <- & Hk). apply in_seq in Hk. lia.
  Qed.

  Lemma whole_same : whole_tile T win = true -> forall c comp w, 0 <= c < count T -> tile_comp T c = Some comp -> comp_window T win c = Some w -> w = comp.
  Proof.
    intros H c comp w Hc Ec Ew. pose proof (proj1 (all_comps_true _) H c Hc) as Q. cbv beta in Q. rewrite Ec, Ew in Q. unfold whole_comp in Q. apply andb_true_iff in Q. destruct Q as [Q1 Q2].
    destruct (fact c Hc) as (comp' & w' & Ec' & Ew' & EX & EY & X & Y & _). assert (comp' = comp) as -> by congruence. assert (w' = w) as -> by congruence. pose proof (whole_axis_eq _ _ X EX Q1). pose proof (whole_axis_eq _ _ Y EY Q2). destruct comp, w. cbn [fst snd] in *. congruence.
  Qed.

  Theorem area_good : forall alloc buf d d1, synthesise psize size T S I mct buf ds d = Some d1 ->
    match decode_area alloc psize size T S I mct csty win ps data buf d with
    | None => ~ (forall c i, alloc c i = true)
    | Some (wh, d2) => forall c comp w, 0 <= c < count T -> tile_comp T c = Some comp -> comp_window T win c = Some w -> forall x y, inside w x y -> d2 c (pos (if wh : bool then comp else w) x y) = d1 c (pos comp x y)
    end.
  Proof.
    intros alloc buf d d1 SY. unfold synthesise in SY. destruct (show_all psize size T S ds d) as [e |] eqn:ESH; [| discriminate SY]. destruct (mct_out T mct (dwt_out T buf e)) as [b1 |] eqn:EMC; [| discriminate SY]. apply some_inj in SY. subst d1.
    destruct (shown_each _ _ _ _ _ _ _ ESH) as [SE _].
    unfold decode_area. cbv zeta. assert (WO : windows_ok T win = true).
    { apply all_comps_true. intros c Hc. destruct (fact c Hc) as (comp & w & _ & Ew & EX & EY & _). rewrite Ew. unfold extent_in in EX, EY. apply negb_true_iff, orb_false_iff. split; apply Z.ltb_ge; lia. }
    rewrite WO, orb_true_r. cbn [negb]. clear WO.
    destruct (read_area psize size T S csty win ps data rest ds HP HD HR) as (ds2 & R2 & G2). unfold or_none in R2. rewrite R2. fold dec.
    destruct (whole_tile T win) eqn:EWT.
    - pose proof (whole_same EWT) as WC.
      assert (SH : area_show psize size T S win ds2 d = show_all psize size T S ds d).
      { unfold area_show, show_all. apply for_ext. intros c [e0 |] Hc; [| reflexivity]. destruct (fact c Hc) as (comp & w & Ec & Ew & EX & EY & _). rewrite Ec, Ew.
        rewrite <- (whole_jobs psize size T S win data ds HW HS HU HL c comp w Hc Ec Ew EX EY ds2 G2 (WC c comp w Hc Ec Ew) (e0 c)). destruct (area_jobs true psize size T S comp w ds2 c); reflexivity. }
      rewrite SH, ESH.
      assert (AG : agree (area_dwt T dec buf e) (dwt_out T buf e)).
      { intros c comp w Hc Ec Ew x y Iw. pose proof (WC c comp w Hc Ec Ew) as Q. subst w. unfold area_dwt, dwt_out. rewrite !(each_plane_spec T _ e c comp Hc Ec).
        destruct (fact c Hc) as (comp' & w' & Ec' & _ & _ & _ & _ & _ & N & _ & D1 & _). assert (comp' = comp) as -> by congruence. rewrite (D1 (inside_filled _ _ _ Iw)). replace (nres (par T c) - 1 + 1) with (nres (par T c)) by lia. rewrite u32_id by lia.
        rewrite firstn_all2 by (rewrite resolutions_len; lia). reflexivity. }
      destruct (proj2 (mct_agree _ _ _ AG EMC) WC) as (b2 & -> & AG2). pose proof (proj2 (shift_agree _ _ AG2) WC) as AG3.
      intros c comp w Hc Ec Ew x y Iw. cbv iota. rewrite <- (AG3 c comp w Hc Ec Ew x y Iw). rewrite (WC c comp w Hc Ec Ew). reflexivity.
    - pose proof (loop_planes (count T) (fun c m => match tile_comp T c, comp_window T win c with Some comp, Some w => area_comp (alloc c) psize size T S comp w (u32 (dec c + 1)) (buf c) ds2 c m | _, _ => None end) d) as LP. cbv beta in LP.
      match type of LP with match ?G with _ => _ end => assert (EQ : area_comps alloc psize size T S win dec buf ds2 d = G) end.
      { unfold area_comps. apply for_ext. intros c [e0 |] Hc; [| reflexivity]. destruct (tile_comp T c); [| reflexivity]. destruct (comp_window T win c); reflexivity. }
      rewrite <- EQ in LP. clear EQ. destruct (area_comps alloc psize size T S win dec buf ds2 d) as [a2 |].
      + destruct LP as [LP _].
        assert (AG : agree a2 (dwt_out T buf e)).
        { intros c comp w Hc Ec Ew x y Iw. specialize (LP c Hc). rewrite Ec, Ew in LP. destruct (fact c Hc) as (comp' & w' & Ec' & Ew' & EX & EY & _ & _ & N & IW & D1 & _). assert (comp' = comp) as -> by congruence. assert (w' = w) as -> by congruence.
          rewrite (D1 (inside_filled _ _ _ (IW _ _ Iw))) in LP. replace (nres (par T c) - 1 + 1) with (nres (par T c)) in LP by lia. rewrite u32_id in LP by lia.
          pose proof (window_comp psize size T S csty win ps data rest ds HW HS HU HL HR c comp w Hc Ec Ew EX EY ds2 (d c) (e c) G2 (SE c Hc) (HH c Hc) (alloc c) (buf c) (d c) (buf c) (HT c comp Hc Ec)) as G. rewrite LP in G.
          unfold dwt_out. rewrite (each_plane_spec T _ e c comp Hc Ec). exact (G x y Iw). }
        destruct (proj1 (mct_agree _ _ _ AG EMC)) as (b2 & -> & AG2). exact (proj1 (shift_agree _ _ AG2)).
      + destruct LP as (c & Hc & LP). destruct (fact c Hc) as (comp & w & Ec & Ew & EX & EY & _ & _ & N & _ & D1 & D0). rewrite Ec, Ew in LP. intros AL. destruct (filled_dec comp) as [F | F].
        * rewrite (D1 F) in LP. replace (nres (par T c) - 1 + 1) with (nres (par T c)) in LP by lia. rewrite u32_id in LP by lia.
          pose proof (window_comp psize size T S csty win ps data rest ds HW HS HU HL HR c comp w Hc Ec Ew EX EY ds2 (d c) (e c) G2 (SE c Hc) (HH c Hc) (alloc c) (buf c) (d c) (buf c) (HT c comp Hc Ec)) as G. rewrite LP in G. apply G. intros i. apply AL.
        * rewrite (D0 F) in LP. change (u32 (0 + 1)) with 1 in LP. revert LP. exact (empty_comp psize size T S csty win ps data rest ds HW HS HU HL HR c comp w Hc Ec Ew EX EY ds2 (d c) (e c) G2 (SE c Hc) (alloc c) (buf c) (d c) F).
  Qed.
End Tile.
