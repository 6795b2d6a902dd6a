(** Stages of a tile, one by one. *)

From Coq Require Import ZArith List Bool Arith Lia ZifyNat.
From Verif Require Import I32 Ints Mem MathModel MathProps BioSpec GeomModel GeomProofs GeomCover GeomProps TgtModel T2PacketModel T1Model CblkModel
  PiModel PiSpec PacketsModel DwtModel DwtTile DwtProps MctModel MctProps ShiftModel ShiftProps TileModel TileGeom TileProofs TileProps SampleModel SampleDwt.
Import ListNotations.
Local Open Scope Z_scope.

(** ** Loops over components *)

Lemma each_plane_spec : forall T f d c comp, 0 <= c < count T -> tile_comp T c = Some comp -> each_plane T f d c = f c comp (d c).
Proof.
  intros T f d c comp Hc E. unfold each_plane.
  set (P := fun (k : Z) (e : planes_t) => (0 <= c < k -> e c = f c comp (d c)) /\ (k <= c -> e c = d c)).
  match goal with |- ?F c = _ => assert (G : P (count T) F) end; [| apply (proj1 G), Hc].
  apply (for_ind P); [lia | split; [lia | reflexivity] |]. intros k e Hk [A B]. unfold P, upd_plane. split.
  - intros H. destruct (Z.eq_dec c k) as [<- |].
    + rewrite E. rewrite Z.eqb_refl. rewrite B by lia. reflexivity.
    + destruct (tile_comp T k); [destruct (Z.eqb_spec c k); [lia |] |]; apply A; lia.
  - intros H. destruct (tile_comp T k); [destruct (Z.eqb_spec c k); [lia |] |]; apply B; lia.
Qed.

Lemma show_all_spec : forall psize size T S ds (Q : Z -> mem -> Prop) d,
  (forall c m, 0 <= c < count T -> exists m', show_comp psize size T S ds c m = Some m' /\ Q c m') ->
  exists d', show_all psize size T S ds d = Some d' /\ forall c, 0 <= c < count T -> Q c (d' c).
Proof.
  intros psize size T S ds Q d H. unfold show_all.
  set (P := fun (k : Z) (o : option planes_t) => k <= count T -> exists e, o = Some e /\ forall c, 0 <= c < k -> Q c (e c)).
  match goal with |- exists d', ?F = _ /\ _ => assert (G : P (count T) F) end; [| apply G; lia].
  apply (for_ind P); [unfold count; lia | intros _; exists d; split; [reflexivity | intros; lia] |]. intros k o Hk IH Hk'. destruct (IH ltac:(lia)) as (e & -> & He).
  destruct (H k (e k) ltac:(lia)) as (m' & -> & Hm). eexists. split; [reflexivity |]. intros c Hc. unfold upd_plane. destruct (Z.eqb_spec c k) as [-> |]; [exact Hm | apply He; lia].
Qed.

Lemma three_spec : forall f n d, 0 <= n ->
  (forall i, 0 <= i < n -> (three f n d 0 i, three f n d 1 i, three f n d 2 i) = f (d 0 i, d 1 i, d 2 i)) /\
  (forall c, ~ 0 <= c <= 2 -> three f n d c = d c).
Proof.
  intros f n d Hn. unfold three.
  set (P := fun (k : Z) (e : planes_t) => (forall i, 0 <= i < k -> (e 0 i, e 1 i, e 2 i) = f (d 0 i, d 1 i, d 2 i)) /\
    (forall i, k <= i -> e 0 i = d 0 i /\ e 1 i = d 1 i /\ e 2 i = d 2 i) /\ (forall c, ~ 0 <= c <= 2 -> e c = d c)).
  match goal with |- (forall i, _ -> (?F 0 i, _, _) = _) /\ _ => assert (G : P n F) end; [| destruct G as (G1 & _ & G3); split; assumption].
  apply (for_ind P); [exact Hn | split; [intros; lia |]; split; [auto | reflexivity] |]. intros k e Hk (A & B & C).
  destruct (B k ltac:(lia)) as (B0 & B1 & B2). rewrite B0, B1, B2. destruct (f (d 0 k, d 1 k, d 2 k)) as [[x y] z] eqn:Ef. unfold P, upd_plane. cbn [Z.eqb Pos.eqb]. split; [| split].
  - intros i Hi. unfold Mem.upd. destruct (Z.eqb_spec i k) as [-> |]; [symmetry; exact Ef | apply A; lia].
  - intros i Hi. unfold Mem.upd. destruct (Z.eqb_spec i k) as [-> |]; [lia | apply B; lia].
  - intros c Hc. destruct (Z.eqb_spec c 2); [lia |]. destruct (Z.eqb_spec c 1); [lia |]. destruct (Z.eqb_spec c 0); [lia |]. apply C, Hc.
Qed.

(** ** Hypotheses *)

(** Samples are of the component's sign and precision, and the shift is the
    default one; no component has more than [P] bits. *)
Definition samples_ok (T : tile) (I : Z -> info) (P : Z) (img : planes_t) : Prop :=
  forall c, 0 <= c < count T -> exists signed, i_sgnd (I c) = flag signed /\ 1 <= i_prec (I c) <= P /\ i_shift (I c) = default_shift (flag signed) (i_prec (I c)) /\
    forall comp i, tile_comp T c = Some comp -> 0 <= i < width (fst comp) * width (snd comp) -> sample signed (i_prec (I c)) (img c i).
(** 32 bits are enough, and no level is empty in width only ([c25_empty_level_refuted]). *)
Definition levels_ok (T : tile) (P : Z) : Prop :=
  0 <= P /\ forall c comp, 0 <= c < count T -> tile_comp T c = Some comp ->
    4 ^ (nres (par T c) - 1) * 2 ^ P < 2 ^ 30 /\ forall l, 0 <= l < nres (par T c) - 1 -> level_ok (DwtModel.res_rect (as_rect comp) l).
(** The component transform is for three components of the same kind. *)
Definition mct_ok (T : tile) (mct : bool) : Prop :=
  mct = true -> 3 <= count T /\ forall c, 0 <= c <= 2 -> sx (par T c) = sx (par T 0) /\ sy (par T c) = sy (par T 0) /\ nres (par T c) = nres (par T 0).

(** How large samples are when the wavelet transform gets them. *)
Definition widest (I : Z -> info) : Z := Z.max (i_prec (I 0)) (Z.max (i_prec (I 1)) (i_prec (I 2))).
Definition peak (I : Z -> info) (mct : bool) (c : Z) : Z :=
  if mct && (c <=? 2) then (if c =? 0 then 2 ^ (widest I - 1) else 2 ^ widest I) else 2 ^ (i_prec (I c) - 1).
(** And their coefficients. *)
Definition band_bound (M n r b : Z) : Z := if r =? 0 then low_bound M (Z.to_nat (n - 1)) else gained (low_bound M (Z.to_nat (n - 1 - r))) (b + 1).

(** ** Geometry *)

Lemma as_rect_ok : forall comp, extent (fst comp) -> extent (snd comp) -> width (fst comp) * width (snd comp) <= 2 ^ 32 -> tile_ok (as_rect comp).
Proof. intros comp [A _] [B _] H. unfold tile_ok, as_rect. cbn [x0 x1 y0 y1]. unfold width in H. lia. Qed.

Lemma ceil_same : forall a l, 0 <= a < 2 ^ 31 -> 0 <= l <= 32 -> ceildivpow2 a l = int_ceildivpow2 a l.
Proof.
  intros a l Ha Hl. rewrite ceildivpow2_eq by lia. assert (P : 0 < 2 ^ l) by (apply Z.pow_pos_nonneg; lia). fold (cdiv a (2 ^ l)).
  apply (ceil_unique a (2 ^ l)); [exact P | apply cdiv_ceil; exact P | apply c29_int_ceildivpow2; [unfold in_i32; lia | lia]].
Qed.

Lemma res_same : forall comp n r, extent (fst comp) -> extent (snd comp) -> 1 <= n <= 33 -> 0 <= r < n ->
  rw (as_rect comp) (n - 1 - r) = width (fst (GeomModel.res_rect comp n r)) /\ rh (as_rect comp) (n - 1 - r) = width (snd (GeomModel.res_rect comp n r)).
Proof.
  intros comp n r [A1 A2] [B1 B2] Hn Hr. unfold rw, rh, GeomModel.res_rect, res_axis, width, DwtModel.res_rect, as_rect. cbn [x0 x1 y0 y1 fst snd].
  rewrite !ceil_same by lia. split; reflexivity.
Qed.

(** ** Before the wavelet transform *)

Section Stages.
  Context (T : tile) (I : Z -> info) (P : Z) (mct : bool) (img : planes_t).
  Hypothesis (HW : wf T) (HS : samples_ok T I P img) (HL : levels_ok T P) (HM : mct_ok T mct).

  Lemma prec_small : P <= 29.
  Proof.
    destruct HL as [P0 H]. assert (H0 : 0 <= 0 < count T) by (destruct HW as (_ & _ & _ & _ & _ & C & _); unfold count; lia).
    destruct (tile_comp_some T 0 HW H0) as (comp & E & _). destruct (H 0 comp H0 E) as [B _].
    destruct (Z_le_gt_dec P 29); [assumption | exfalso]. assert (1 <= 4 ^ (nres (par T 0) - 1)).
    { destruct HW as (_ & _ & _ & _ & _ & _ & F & _). rewrite Forall_forall in F. destruct (F (par T 0) ltac:(apply nth_In; unfold count in H0; lia)) as (_ & _ & N & _). pose proof (Z.pow_pos_nonneg 4 (nres (par T 0) - 1)). lia. }
    assert (2 ^ 30 <= 2 ^ P) by (apply Z.pow_le_mono_r; lia). nia.
  Qed.

  Lemma comps_same : mct = true -> forall c comp, 0 <= c <= 2 -> tile_comp T 0 = Some comp -> tile_comp T c = Some comp.
  Proof. intros E c comp Hc H0. destruct (HM E) as [_ H]. destruct (H c Hc) as (X & Y & _). unfold tile_comp in *. rewrite X, Y. exact H0. Qed.

  Lemma shifted : forall c comp i, 0 <= c < count T -> tile_comp T c = Some comp -> 0 <= i < width (fst comp) * width (snd comp) ->
    shift_in T I img c i = shift_enc (i_shift (I c)) (img c i) /\ - 2 ^ (i_prec (I c) - 1) <= shift_in T I img c i < 2 ^ (i_prec (I c) - 1).
  Proof.
    intros c comp i Hc E Hi. unfold shift_in. rewrite (each_plane_spec T _ img c comp Hc E). rewrite c37_encode_plane by lia.
    destruct (Z.leb_spec 0 i); [| lia]. destruct (Z.ltb_spec i (width (fst comp) * width (snd comp))); [| lia]. cbn [andb]. split; [reflexivity |].
    destruct (HS c Hc) as (signed & _ & Hp & -> & Hx). pose proof prec_small. apply c37_centred; [lia | exact (Hx comp i E Hi)].
  Qed.

  Lemma pow_up : forall a b, 0 <= a <= b -> 2 ^ a <= 2 ^ b.
  Proof. intros. apply Z.pow_le_mono_r; lia. Qed.

  Lemma mixed : exists d, mct_in T mct (shift_in T I img) = Some d /\
    forall c comp i, 0 <= c < count T -> tile_comp T c = Some comp -> 0 <= i < width (fst comp) * width (snd comp) ->
      - peak I mct c <= d c i <= peak I mct c /\
      (mct = true -> 0 <= c <= 2 -> rct_inv i32 (d 0 i, d 1 i, d 2 i) = (shift_in T I img 0 i, shift_in T I img 1 i, shift_in T I img 2 i)) /\
      (mct = false \/ 2 < c -> d c i = shift_in T I img c i).
  Proof.
    unfold mct_in. destruct (bool_dec mct true) as [Em | Em]; [rewrite Em | apply not_true_is_false in Em; rewrite Em].
    - destruct (HM Em) as [C3 _]. destruct (tile_comp_some T 0 HW ltac:(unfold count in C3; lia)) as (comp0 & E0 & X0 & Y0). rewrite E0. eexists. split; [reflexivity |].
      assert (N : 0 <= width (fst comp0) * width (snd comp0)) by (destruct X0 as (_ & _ & [? _]), Y0 as (_ & _ & [? _]); unfold width; nia).
      destruct (three_spec (rct_fwd i32) (width (fst comp0) * width (snd comp0)) (shift_in T I img) N) as [T1 T2].
      intros c comp i Hc E Hi. unfold peak. cbn [andb]. destruct (Z.leb_spec c 2) as [L | L].
      + assert (comp = comp0) as -> by (pose proof (comps_same Em c comp0 ltac:(lia) E0); congruence).
        specialize (T1 i Hi).
        destruct (shifted 0 comp0 i ltac:(lia) E0 Hi) as [_ R0]. destruct (shifted 1 comp0 i ltac:(lia) (comps_same Em 1 comp0 ltac:(lia) E0) Hi) as [_ R1]. destruct (shifted 2 comp0 i ltac:(lia) (comps_same Em 2 comp0 ltac:(lia) E0) Hi) as [_ R2].
        destruct (HS 0 ltac:(lia)) as (_ & _ & P0 & _). destruct (HS 1 ltac:(lia)) as (_ & _ & P1 & _). destruct (HS 2 ltac:(lia)) as (_ & _ & P2 & _). pose proof prec_small as PS.
        pose proof (pow_up (i_prec (I 0) - 1) (widest I - 1) ltac:(unfold widest; lia)) as W0. pose proof (pow_up (i_prec (I 1) - 1) (widest I - 1) ltac:(unfold widest; lia)) as W1.
        pose proof (pow_up (i_prec (I 2) - 1) (widest I - 1) ltac:(unfold widest; lia)) as W2. pose proof (pow_up (widest I - 1) 28 ltac:(unfold widest; lia)) as W3.
        assert (W4 : 2 ^ widest I = 2 * 2 ^ (widest I - 1)) by (rewrite <- Z.pow_succ_r by (unfold widest; lia); f_equal; lia).
        set (r := shift_in T I img 0 i) in *. set (g := shift_in T I img 1 i) in *. set (b := shift_in T I img 2 i) in *. set (d := three _ _ _) in *.
        assert (SP : small_pixel (r, g, b)) by (unfold small_pixel; repeat split; lia).
        rewrite (fwd_exact _ SP) in T1. split; [| split].
        * unfold rct_spec in T1. assert (D0 : d 0 i = (r + 2 * g + b) / 4) by congruence. assert (D1 : d 1 i = b - g) by congruence. assert (D2 : d 2 i = r - g) by congruence.
          destruct (Z.eqb_spec c 0) as [-> |]; [rewrite D0; clear - R0 R1 R2 W0 W1 W2; split; [apply Z.div_le_lower_bound | apply Z.div_le_upper_bound]; lia |].
          assert (c = 1 \/ c = 2) as [-> | ->] by lia; [rewrite D1 | rewrite D2]; lia.
        * intros _ _. rewrite T1. apply inv_exact, SP.
        * intros [X | X]; [discriminate | lia].
      + rewrite T2 by lia. destruct (shifted c comp i Hc E Hi) as [_ R]. split; [lia |]. split; [intros _ X; lia | reflexivity].
    - eexists. split; [reflexivity |]. intros c comp i Hc E Hi. destruct (shifted c comp i Hc E Hi) as [_ R]. unfold peak. cbn [andb]. split; [lia |]. split; [discriminate | reflexivity].
  Qed.

  Lemma peak_le : forall c, 0 <= c < count T -> 0 <= peak I mct c <= 2 ^ P.
  Proof.
    intros c Hc. unfold peak. assert (P0 : 0 < P) by (destruct (HS c Hc) as (_ & _ & H & _); lia). destruct (mct && (c <=? 2)) eqn:E.
    - apply andb_true_iff in E. destruct E as [E _]. destruct (HM E) as [C3 _]. destruct (HS 0 ltac:(lia)) as (_ & _ & P1 & _). destruct (HS 1 ltac:(lia)) as (_ & _ & P2 & _). destruct (HS 2 ltac:(lia)) as (_ & _ & P3 & _).
      pose proof (pow_up (widest I - 1) P ltac:(unfold widest; lia)). pose proof (pow_up (widest I) P ltac:(unfold widest; lia)). pose proof (Z.pow_nonneg 2 (widest I - 1) ltac:(lia)). pose proof (Z.pow_nonneg 2 (widest I) ltac:(lia)). destruct (c =? 0); lia.
    - destruct (HS c Hc) as (_ & _ & H & _). pose proof (pow_up (i_prec (I c) - 1) P ltac:(lia)). pose proof (Z.pow_nonneg 2 (i_prec (I c) - 1) ltac:(lia)). lia.
  Qed.

  (** ** The wavelet transform *)

  Lemma comp_facts : forall c, 0 <= c < count T -> exists comp, tile_comp T c = Some comp /\ extent (fst comp) /\ extent (snd comp) /\ 1 <= nres (par T c) <= 33.
  Proof.
    intros c Hc. destruct (tile_comp_some T c HW Hc) as (comp & E & (_ & _ & X) & (_ & _ & Y)). exists comp. split; [exact E |]. split; [exact X |]. split; [exact Y |].
    destruct HW as (_ & _ & _ & _ & _ & _ & F & _). rewrite Forall_forall in F. destruct (F (par T c) ltac:(apply nth_In; unfold count in Hc; lia)) as (_ & _ & N & _). lia.
  Qed.

  Context (tmp : Z -> mem).
  Hypothesis (HA : forall c comp, 0 <= c < count T -> tile_comp T c = Some comp -> width (fst comp) * width (snd comp) <= 2 ^ 32).

  Lemma transformed : exists d coef, mct_in T mct (shift_in T I img) = Some d /\ analyse T I mct tmp img = Some coef /\
    forall c comp, 0 <= c < count T -> tile_comp T c = Some comp ->
      (forall buf p x, 0 <= p < width (snd comp) -> 0 <= x < width (fst comp) ->
         fst (dwt_decode_tile (width (fst comp)) (resolutions (as_rect comp) (Z.to_nat (nres (par T c)))) (coef c, buf)) (p * width (fst comp) + x) = d c (p * width (fst comp) + x)) /\
      (forall r b x y, 0 <= r < nres (par T c) -> In b (band_numbers r) -> inside (band_rect comp (nres (par T c)) r b) x y ->
         Z.abs (coef c (home comp (nres (par T c)) r b x y)) <= band_bound (peak I mct c) (nres (par T c)) r b).
  Proof.
    destruct mixed as (d & Ed & Hd). exists d. eexists. split; [exact Ed |]. unfold analyse. rewrite Ed. split; [reflexivity |].
    intros c comp Hc E. destruct (comp_facts c Hc) as (comp' & E' & X & Y & N). assert (comp' = comp) as -> by congruence. clear E'.
    unfold dwt_in. rewrite (each_plane_spec T _ d c comp Hc E). destruct HL as [P0 H]. destruct (H c comp Hc E) as [B LO]. pose proof (peak_le c Hc) as [K0 K1].
    pose proof (as_rect_ok comp X Y (HA c comp Hc E)) as TO. set (n := nres (par T c)) in *. set (L := Z.to_nat (n - 1)). assert (EL : Z.of_nat L = n - 1) by (subst L; lia).
    replace (Z.to_nat n) with (S L) by (subst L; lia). set (t := as_rect comp) in *. set (M := peak I mct c) in *.
    assert (Bn : 4 ^ Z.of_nat L * M < 2 ^ 30) by (rewrite EL; assert (0 < 4 ^ (n - 1)) by (apply Z.pow_pos_nonneg; lia); nia).
    assert (LO' : forall l, 0 <= l < Z.of_nat L -> level_ok (DwtModel.res_rect t l)) by (intros l Hl; apply LO; lia).
    assert (SM : forall p q, 0 <= p < y1 t - y0 t -> 0 <= q < x1 t - x0 t -> - M <= d c (p * (x1 t - x0 t) + q) <= M).
    { intros p q Hp Hq. unfold t, as_rect in *. cbn [x0 x1 y0 y1] in *. fold (width (fst comp)) in *. fold (width (snd comp)) in *. apply (proj1 (Hd c comp (p * width (fst comp) + q) Hc E ltac:(nia))). }
    change (width (fst comp)) with (x1 t - x0 t). change (width (snd comp)) with (y1 t - y0 t). split.
    - intros buf p q Hp Hq. exact (c25_lossless t L M (d c) (tmp c) buf TO K0 Bn LO' SM p q Hq).
    - destruct (levels_gain t L M (d c) (tmp c) TO K0 Bn LO' SM) as [G1 G2]. set (m' := fst (dwt_encode _ _ _)) in *.
      intros r b x y Hr Hb [Hx Hy]. unfold GeomProofs.within in Hx, Hy. pose proof (band_inside comp n r b X Y N Hr Hb) as BI. cbn zeta in BI. unfold home. change (width (fst comp)) with (x1 t - x0 t).
      destruct (res_same comp n r X Y N Hr) as [RW RH]. fold t in RW, RH.
      set (bx := x - fst (fst (band_rect comp n r b)) + right_of comp n r b) in *. set (by_ := y - fst (snd (band_rect comp n r b)) + below comp n r b) in *.
      assert (BX : right_of comp n r b <= bx < right_of comp n r b + width (fst (band_rect comp n r b))) by (subst bx; unfold width; lia).
      assert (BY : below comp n r b <= by_ < below comp n r b + width (snd (band_rect comp n r b))) by (subst by_; unfold width; lia).
      unfold band_bound. destruct (Z.eqb_spec r 0) as [-> | Z0].
      + rewrite Z.sub_0_r in RW, RH. rewrite <- EL in RW, RH. specialize (G1 by_ bx ltac:(lia) ltac:(lia)). unfold DwtProps.within in G1. fold L. lia.
      + set (l := Z.to_nat (n - 1 - r)). assert (El : Z.of_nat l = n - 1 - r) by (subst l; lia). rewrite <- El in RW, RH.
        destruct (res_same comp n (r - 1) X Y N ltac:(lia)) as [RW' RH']. replace (n - 1 - (r - 1)) with (Z.of_nat l + 1) in RW', RH' by lia. fold t in RW', RH'.
        destruct (c38_bands_fill_resolution comp n r X Y N ltac:(lia)) as (_ & _ & A1 & A2 & A3 & A4).
        assert (QD : quadrant (rw t (Z.of_nat l + 1)) (rh t (Z.of_nat l + 1)) bx by_ = b + 1).
        { rewrite RW', RH'. unfold right_of, below, orient in *. unfold band_numbers in Hb. destruct (Z.eqb_spec r 0); [lia |]. clear - BX BY Hb A1 A2 A3 A4. unfold quadrant.
          destruct Hb as [<- | [<- | [<- | []]]]; cbn [Z.add Pos.add Z.odd Z.leb Z.compare Pos.compare Pos.compare_cont Pos.succ] in *.
          - rewrite A1 in BY. destruct (Z.ltb_spec bx (width (fst (GeomModel.res_rect comp n (r - 1))))), (Z.ltb_spec by_ (width (snd (GeomModel.res_rect comp n (r - 1))))); lia.
          - rewrite A2 in BX. destruct (Z.ltb_spec bx (width (fst (GeomModel.res_rect comp n (r - 1))))), (Z.ltb_spec by_ (width (snd (GeomModel.res_rect comp n (r - 1))))); lia.
          - destruct (Z.ltb_spec bx (width (fst (GeomModel.res_rect comp n (r - 1))))), (Z.ltb_spec by_ (width (snd (GeomModel.res_rect comp n (r - 1))))); lia. }
        specialize (G2 l ltac:(lia) by_ bx ltac:(lia) ltac:(lia)). rewrite QD in G2.
        assert (Hb0 : b + 1 <> 0) by (unfold band_numbers in Hb; destruct (Z.eqb_spec r 0); [lia |]; destruct Hb as [<- | [<- | [<- | []]]]; lia).
        specialize (G2 Hb0). unfold DwtProps.within in G2. lia.
  Qed.

  (** ** The decoder's stages *)

  Lemma restored : forall psize size S buf ds coef d0, analyse T I mct tmp img = Some coef ->
    (forall c m, 0 <= c < count T -> exists comp m', tile_comp T c = Some comp /\ show_comp psize size T S ds c m = Some m' /\
       forall i, 0 <= i < width (fst comp) * width (snd comp) -> m' i = coef c i) ->
    exists d', synthesise psize size T S I mct buf ds d0 = Some d' /\
      forall c comp i, 0 <= c < count T -> tile_comp T c = Some comp -> 0 <= i < width (fst comp) * width (snd comp) -> d' c i = img c i.
  Proof.
    intros psize size S buf ds coef d0 EA HD. destruct transformed as (d & coef' & Ed & EA' & HT). assert (coef' = coef) as -> by congruence. clear EA'.
    destruct mixed as (d1 & Ed1 & Hm). assert (d1 = d) as -> by congruence. clear Ed1.
    set (Q := fun c (m : mem) => forall comp i, tile_comp T c = Some comp -> 0 <= i < width (fst comp) * width (snd comp) -> m i = coef c i).
    destruct (show_all_spec psize size T S ds Q d0) as (e & Ee & He).
    { intros c m Hc. destruct (HD c m Hc) as (comp & m' & E & Es & Hi). exists m'. split; [exact Es |]. intros comp' i E'. assert (comp' = comp) as -> by congruence. apply Hi. }
    unfold synthesise. rewrite Ee. clear Ee.
    assert (HW2 : forall c comp i, 0 <= c < count T -> tile_comp T c = Some comp -> 0 <= i < width (fst comp) * width (snd comp) -> dwt_out T buf e c i = d c i).
    { intros c comp i Hc E Hi. unfold dwt_out. rewrite (each_plane_spec T _ e c comp Hc E). destruct (comp_facts c Hc) as (comp' & E' & X & Y & N). assert (comp' = comp) as -> by congruence. clear E'.
      assert (W0 : 0 < width (fst comp)) by (destruct X as [X _], Y as [Y _]; unfold width in *; nia). destruct (flat_split _ _ _ W0 Hi) as (F1 & F2 & F3).
      rewrite F3. rewrite (Z.add_comm (i mod _)). rewrite <- (proj1 (HT c comp Hc E) (buf c) _ _ F2 F1).
      pose proof (as_rect_ok comp X Y (HA c comp Hc E)) as TO. refine (decode_tile_agree (as_rect comp) _ (e c) (coef c) (buf c) (buf c) TO _ _ _ F2 F1).
      intros p x Hp Hx. apply (He c Hc comp _ E). unfold as_rect in *. cbn [x0 x1 y0 y1] in *. fold (width (fst comp)) in *. fold (width (snd comp)) in *. nia. }
    assert (HM2 : exists f, mct_out T mct (dwt_out T buf e) = Some f /\ forall c comp i, 0 <= c < count T -> tile_comp T c = Some comp -> 0 <= i < width (fst comp) * width (snd comp) -> f c i = shift_in T I img c i).
    { unfold mct_out. destruct (bool_dec mct true) as [Em | Em]; [| apply not_true_is_false in Em].
      - rewrite Em. cbn [negb]. destruct (HM Em) as [C3 CS]. destruct (Z.ltb_spec (count T) 3); [lia |]. destruct (comp_facts 0 ltac:(lia)) as (comp0 & E0 & X0 & Y0 & _).
        pose proof (comps_same Em 1 comp0 ltac:(lia) E0) as E1. pose proof (comps_same Em 2 comp0 ltac:(lia) E0) as E2. unfold samples_of. rewrite E0, E1, E2.
        rewrite (proj2 (proj2 (CS 1 ltac:(lia)))), (proj2 (proj2 (CS 2 ltac:(lia)))), !Z.eqb_refl. cbn [andb]. eexists. split; [reflexivity |].
        assert (N0 : 0 <= width (fst comp0) * width (snd comp0)) by (destruct X0 as [? _], Y0 as [? _]; unfold width; nia).
        destruct (three_spec (rct_inv i32) _ (dwt_out T buf e) N0) as [T1 T2]. intros c comp i Hc E Hi. destruct (Z_le_gt_dec c 2) as [L | L].
        + assert (comp = comp0) as -> by (pose proof (comps_same Em c comp0 ltac:(lia) E0); congruence). specialize (T1 i Hi).
          rewrite (HW2 0 comp0 i ltac:(lia) E0 Hi), (HW2 1 comp0 i ltac:(lia) E1 Hi), (HW2 2 comp0 i ltac:(lia) E2 Hi) in T1.
          rewrite (proj1 (proj2 (Hm c comp0 i Hc E Hi)) Em ltac:(lia)) in T1.
          assert (c = 0 \/ c = 1 \/ c = 2) as [-> | [-> | ->]] by lia; congruence.
        + rewrite T2 by lia. rewrite (HW2 c comp i Hc E Hi). apply (proj2 (proj2 (Hm c comp i Hc E Hi))). right. lia.
      - rewrite Em. cbn [negb]. eexists. split; [reflexivity |]. intros c comp i Hc E Hi. rewrite (HW2 c comp i Hc E Hi). apply (proj2 (proj2 (Hm c comp i Hc E Hi))). left. exact Em. }
    destruct HM2 as (f & -> & Hf). eexists. split; [reflexivity |]. intros c comp i Hc E Hi. unfold shift_out. rewrite (each_plane_spec T _ f c comp Hc E).
    destruct (comp_facts c Hc) as (comp' & E' & X & Y & N). assert (comp' = comp) as -> by congruence. clear E'.
    assert (W0 : 0 < width (fst comp)) by (destruct X as [X _], Y as [Y _]; unfold width in *; nia). destruct (flat_split _ _ _ W0 Hi) as (F1 & F2 & F3).
    destruct (Z.eqb_spec (width (fst comp)) 0); [lia |]. destruct (Z.eqb_spec (width (snd comp)) 0); [lia |]. cbn [orb].
    destruct (HS c Hc) as (signed & Sg & Hp & _ & Hx). pose proof prec_small. rewrite Sg. pose proof (c37_round_trip signed (i_prec (I c)) (i_shift (I c)) (img c i) ltac:(lia) (Hx comp i E Hi)) as RT.
    destruct (range_of (flag signed) (i_prec (I c))) as [lo hi]. destruct (c37_decode_plane (i_shift (I c)) lo hi (width (fst comp)) (width (snd comp)) 0 (f c) ltac:(lia) ltac:(lia) ltac:(lia)) as [DP _].
    specialize (DP _ _ F1 F2). rewrite Z.add_0_r in DP. rewrite (Z.add_comm (i / _ * _)), <- F3 in DP. rewrite DP, (Hf c comp i Hc E Hi), (proj1 (shifted c comp i Hc E Hi)). exact RT.
  Qed.
End Stages.
