(** The code-blocks of a tile, from the coefficients to the packets and back. *)

From Coq Require Import ZArith List Bool Arith Lia ZifyNat.
From Verif Require Import I32 MathModel Mem GeomModel GeomProofs GeomCover GeomProps TgtModel TgtProofs TgtProps
  T2CodesModel Ints T2PacketModel T2PacketProps T1Model T1Props CblkModel PiModel PiSpec PacketsModel PacketsProps TileModel TileGeom.
Import ListNotations.
Local Open Scope Z_scope.

(** ** What is asked of a tile *)

(** Code-block styles. *)
Definition flags_ok (S : Z -> style) : Prop :=
  forall c, Z.land (s_sty (S c)) 64 = 0 /\ 0 <= s_roi (S c) /\ (s_roi (S c) = 0 \/ Z.land (s_sty (S c)) CBLKSTY_LAZY = 0).
(** Sizes of code-blocks and precincts, numbers of bit-planes. *)
Definition sizes_ok (T : tile) (S : Z -> style) : Prop :=
  forall c, 0 <= c < Z.of_nat (length (t_comps T)) ->
    2 <= s_cbw (S c) <= 10 /\ 2 <= s_cbh (S c) <= 10 /\ s_cbw (S c) + s_cbh (S c) <= 12 /\
    (forall r, 0 < r < nres (par T c) -> 1 <= ex (par T c) r /\ 1 <= ey (par T c) r) /\
    (forall r b, 0 <= r < nres (par T c) -> In b (band_numbers r) -> 0 <= planes (S c) r b <= 25 /\ s_roi (S c) + planes (S c) r b <= 30) /\
    (forall comp, tile_comp T c = Some comp -> width (fst comp) * width (snd comp) <= 2 ^ 32).
(** The code's limits on the number of precincts and code-blocks are kept. *)
Definition sets_up (psize size : Z) (T : tile) (S : Z -> style) : Prop :=
  0 < psize /\ 0 < size /\ forall c r comp, resolution T c r -> tile_comp T c = Some comp -> res_bands psize size (par T c) (S c) comp r <> None.
(** The coefficients of each band have no more bits than the band has bit-planes. *)
Definition fits_planes (T : tile) (S : Z -> style) (data : Z -> mem) : Prop :=
  forall c r comp b x y, resolution T c r -> tile_comp T c = Some comp -> In b (band_numbers r) -> inside (band_rect comp (nres (par T c)) r b) x y ->
    Z.abs (data c (home comp (nres (par T c)) r b x y)) < 2 ^ planes (S c) r b.
(** The byte before each coding buffer. *)
Definition buffers_ok (bufs : key -> mem) : Prop := forall q, (forall i, 0 <= bufs q i <= 255) /\ bufs q 0 <> 255.
(** Rate allocation put all passes into the layers, in order. *)
Definition all_passes (psize size : Z) (T : tile) (S : Z -> style) (data : Z -> mem) (bufs : key -> mem) (cuts : key -> list nat) (nlay : nat) : Prop :=
  forall c r comp bs b k q j blk kd, resolution T c r -> tile_comp T c = Some comp -> res_bands psize size (par T c) (S c) comp r = Some bs -> In b bs -> 0 <= k ->
    nth_error (b_precs b) (Z.to_nat k) = Some q -> nth_error (cblks q) j = Some blk ->
    code_block (S c) comp (nres (par T c)) r b blk (data c) (bufs (c, r, b_no b, k, j)) = Some kd ->
    length (cuts (c, r, b_no b, k, j)) = nlay /\ ascending 0 (cuts (c, r, b_no b, k, j)) (length (k_rates kd)) /\
    cut (cuts (c, r, b_no b, k, j)) nlay = length (k_rates kd).

(** ** Lists *)

Lemma forall2_nth : forall {A B} (P : A -> B -> Prop) l m, Forall2 P l m -> forall i a b, nth_error l i = Some a -> nth_error m i = Some b -> P a b.
Proof. intros A B P l m H. induction H as [| x y l m X H IH]; intros [| i] a b Ha Hb; cbn [nth_error] in *; try discriminate; [congruence | eapply IH; eassumption]. Qed.

Lemma forall2_len : forall {A B} (P : A -> B -> Prop) l m, Forall2 P l m -> length l = length m.
Proof. intros A B P l m H. induction H; cbn [length]; congruence. Qed.

Lemma numbered_nth : forall {A} (l : list A) i, nth_error (numbered l) i = match nth_error l i with Some a => Some (i, a) | None => None end.
Proof.
  intros A l. unfold numbered. assert (G : forall s i, nth_error (combine (seq s (length l)) l) i = match nth_error l i with Some a => Some ((s + i)%nat, a) | None => None end).
  { induction l as [| a l IH]; intros s [| i]; cbn [length seq combine nth_error]; try reflexivity; [f_equal; f_equal; lia |]. rewrite IH. destruct (nth_error l i); [f_equal; f_equal; lia | reflexivity]. }
  intros i. rewrite G. reflexivity.
Qed.

Lemma numbered_in : forall {A} (l : list A) i a, In (i, a) (numbered l) <-> nth_error l i = Some a.
Proof.
  intros A l i a. split.
  - intros H. apply In_nth_error in H. destruct H as [n H]. rewrite numbered_nth in H. destruct (nth_error l n) eqn:E; [| discriminate]. injection H as <- <-. exact E.
  - intros H. apply (nth_error_In _ i). rewrite numbered_nth, H. reflexivity.
Qed.

Lemma combine_nth_error : forall {A B} (l : list A) (m : list B) i, nth_error (combine l m) i = match nth_error l i, nth_error m i with Some a, Some b => Some (a, b) | _, _ => None end.
Proof. intros A B. induction l as [| a l IH]; intros [| b m] [| i]; cbn [combine nth_error]; try reflexivity; [destruct (nth_error l i); reflexivity | apply IH]. Qed.

Lemma all_some_map : forall {A B} (f : A -> option B) l r, all_some (map f l) = Some r -> Forall2 (fun a b => f a = Some b) l r.
Proof.
  intros A B f l. induction l as [| a l IH]; intros r E; cbn [map all_some] in E; [injection E as <-; constructor |].
  destruct (f a) as [b |] eqn:Fa; [| discriminate]. destruct (all_some (map f l)) as [m |]; [| discriminate]. injection E as <-. constructor; [exact Fa | apply IH; reflexivity].
Qed.

Lemma all_some_total : forall {A B} (f : A -> option B) l, (forall a, In a l -> f a <> None) -> all_some (map f l) <> None.
Proof.
  intros A B f l. induction l as [| a l IH]; intros H; cbn [map all_some]; [discriminate |]. pose proof (H a (or_introl eq_refl)) as X. destruct (f a); [| contradiction].
  specialize (IH (fun b Hb => H b (or_intror Hb))). destruct (all_some (map f l)); [discriminate | contradiction].
Qed.

(** ** Bands *)

Lemma precincts_same : forall psize s1 s2 c comp n r b p1 p2, band_precincts psize s1 c comp n r b = Some p1 -> band_precincts psize s2 c comp n r b = Some p2 -> p1 = p2.
Proof.
  intros psize s1 s2 c comp n r b p1 p2. unfold band_precincts, make_band. destruct (prec_axis _ _) as [[a1 pw] |]; [| discriminate]. destruct (prec_axis _ _) as [[a2 ph] |]; [| discriminate].
  destruct (_ && _); [discriminate |]. destruct (_ <? _); [discriminate |]. generalize (upto (u32 (pw * ph))). intros l. revert p1 p2.
  induction l as [| k l IH]; intros p1 p2; cbn [map all_some]; [congruence |].
  assert (Q : forall q1 q2, make_precinct s1 r a1 a2 pw c (band_rect comp n r b) k = Some q1 -> make_precinct s2 r a1 a2 pw c (band_rect comp n r b) k = Some q2 -> q1 = q2).
  { intros q1 q2. unfold make_precinct. destruct (group_axis r a1 _) as [gx ex]. destruct (group_axis r a2 _) as [gy ey]. destruct (blocks_axis _ _) as [tx w]. destruct (blocks_axis _ _) as [ty h].
    destruct (_ <? _); [discriminate |]. destruct (_ <? _); [discriminate |]. congruence. }
  destruct (make_precinct s1 _ _ _ _ _ _ _) as [q1 |]; [| discriminate]. destruct (all_some (map (make_precinct s1 _ _ _ _ _ _) l)) as [l1 |]; [| discriminate].
  destruct (make_precinct s2 _ _ _ _ _ _ _) as [q2 |]; [| discriminate]. destruct (all_some (map (make_precinct s2 _ _ _ _ _ _) l)) as [l2 |]; [| discriminate].
  intros E1 E2. rewrite <- (some_inj _ _ E1), <- (some_inj _ _ E2). rewrite (Q q1 q2 eq_refl eq_refl), (IH l1 l2 eq_refl eq_refl). reflexivity.
Qed.

Lemma bands_same : forall psize s1 s2 p s comp r b1 b2, res_bands psize s1 p s comp r = Some b1 -> res_bands psize s2 p s comp r = Some b2 -> b1 = b2.
Proof.
  intros psize s1 s2 p s comp r. unfold res_bands. generalize (filter (fun b => negb (is_band_empty (band_rect comp (nres p) r b))) (band_numbers r)). intros l.
  induction l as [| b l IH]; intros b1 b2; cbn [map all_some]; [congruence |].
  destruct (band_precincts psize s1 _ _ _ _ b) as [q1 |] eqn:E1; [| discriminate]. destruct (band_precincts psize s2 _ _ _ _ b) as [q2 |] eqn:E2; [| destruct (all_some _); discriminate].
  destruct (all_some _) as [l1 |] eqn:A1; [| discriminate]. destruct (all_some (map _ l)) as [l2 |] eqn:A2 in |- *; [| discriminate].
  intros X1 X2. rewrite <- (some_inj _ _ X1), <- (some_inj _ _ X2). f_equal; [f_equal; exact (precincts_same _ _ _ _ _ _ _ _ _ _ E1 E2) | apply IH; [reflexivity | exact A2]].
Qed.

(** What is known of a band of the list. *)
Record band_ok (psize size : Z) (T : tile) (S : Z -> style) (c r : Z) (comp : rect) (b : band) : Prop := mkBandOk {
  bo_in : In (b_no b) (band_numbers r);
  bo_some : is_band_empty (band_rect comp (nres (par T c)) r (b_no b)) = false;
  bo_set : setting comp (nres (par T c)) r (b_no b) psize size (mkCoding (ex (par T c) r) (ey (par T c) r) (s_cbw (S c)) (s_cbh (S c)));
  bo_rect : b_rect b = band_rect comp (nres (par T c)) r (b_no b);
  bo_precs : band_precincts psize size (mkCoding (ex (par T c) r) (ey (par T c) r) (s_cbw (S c)) (s_cbh (S c))) comp (nres (par T c)) r (b_no b) = Some (b_precs b);
  bo_count : Z.of_nat (length (b_precs b)) = wide T c r * high T c r }.

Lemma wf_params : forall T c r, wf T -> resolution T c r -> 1 <= sx (par T c) <= 255 /\ 1 <= sy (par T c) <= 255 /\ 1 <= nres (par T c) <= 33 /\ 0 <= ex (par T c) r <= 15 /\ 0 <= ey (par T c) r <= 15.
Proof.
  intros T c r (_ & _ & _ & _ & _ & _ & F & _) [Hc Hr]. assert (I : In (par T c) (t_comps T)) by (apply nth_In; lia). rewrite Forall_forall in F. destruct (F _ I) as (A & B & C & D).
  rewrite Forall_forall in D. unfold nres in Hr. specialize (D (nth (Z.to_nat r) (exps (par T c)) (0, 0)) ltac:(apply nth_In; lia)). unfold ex, ey. tauto.
Qed.

Lemma bands_ok : forall psize size T S c r comp bs, wf T -> sizes_ok T S -> resolution T c r -> tile_comp T c = Some comp -> 0 < psize -> 0 < size ->
  res_bands psize size (par T c) (S c) comp r = Some bs -> Forall (band_ok psize size T S c r comp) bs.
Proof.
  intros psize size T S c r comp bs HW HS Hr Ec Hp Hz E. apply all_some_map in E. destruct (HS c (proj1 Hr)) as (S1 & S2 & S3 & S4 & S5 & S6).
  destruct (wf_params T c r HW Hr) as (P1 & P2 & P3 & P4 & P5). destruct (tile_comp_some T c HW (proj1 Hr)) as (comp' & Ec' & Cx & Cy). assert (comp' = comp) as -> by congruence.
  apply Forall_forall. intros b Hb. apply In_nth_error in Hb. destruct Hb as [i Hi].
  set (l := filter _ _) in E. destruct (nth_error l i) as [b0 |] eqn:El.
  2:{ apply nth_error_None in El. rewrite (forall2_len _ _ _ E) in El. apply nth_error_None in El. congruence. }
  pose proof (forall2_nth _ _ _ E i _ _ El Hi) as X. cbv beta in X. destruct (band_precincts _ _ _ _ _ _ b0) as [ps |] eqn:Ep; [| discriminate]. apply some_inj in X. subst b. cbn [b_no b_rect b_precs].
  apply nth_error_In in El. apply filter_In in El. destruct El as [I1 I2]. apply negb_true_iff in I2. pose proof Hr as [Hc Hr'].
  assert (St : setting comp (nres (par T c)) r b0 psize size (mkCoding (ex (par T c) r) (ey (par T c) r) (s_cbw (S c)) (s_cbh (S c)))).
  { constructor; cbn [GeomModel.pdx GeomModel.pdy cblkw cblkh]; try lia; try exact (proj2 (proj2 Cx)); try exact (proj2 (proj2 Cy)); [apply band_cases, I1 | intros R0; apply S4; lia]. }
  constructor; cbn [b_no b_rect b_precs]; try assumption; try reflexivity.
  apply (precincts_count psize size (par T c) r b0 comp ps (S c) (t_x0 T) (t_x1 T) (t_y0 T) (t_y1 T)); try assumption; lia.
Qed.

(** All bands have the precinct, or none. *)
Lemma at_precinct_nth : forall bs k i b q, (forall b', In b' bs -> (Z.to_nat k < length (b_precs b'))%nat) -> nth_error bs i = Some b -> nth_error (b_precs b) (Z.to_nat k) = Some q ->
  nth_error (at_precinct bs k) i = Some (b, q).
Proof.
  unfold at_precinct. induction bs as [| b' bs IH]; intros k i b q Hk Hi Hq; [destruct i; discriminate |]. cbn [flat_map].
  pose proof (Hk b' (or_introl eq_refl)) as L. destruct (nth_error (b_precs b') (Z.to_nat k)) as [q' |] eqn:E; [| apply nth_error_None in E; lia].
  destruct i as [| i]; cbn [nth_error app] in *; [congruence |]. apply IH; [intros b2 H2; apply Hk; right; exact H2 | exact Hi | exact Hq].
Qed.

Lemma at_precinct_in : forall bs k b q, In (b, q) (at_precinct bs k) -> In b bs /\ nth_error (b_precs b) (Z.to_nat k) = Some q.
Proof.
  intros bs k b q H. unfold at_precinct in H. apply in_flat_map in H. destruct H as (b' & Hb & H). destruct (nth_error (b_precs b') (Z.to_nat k)) as [q' |] eqn:E; [| destruct H].
  destruct H as [X | []]. injection X as -> ->. split; assumption.
Qed.

(** ** Code-blocks *)

(** The positions of a block's coefficients. *)
Lemma take_is : forall psize size T S c r comp b k j blk data x y, band_ok psize size T S c r comp b -> block_at (b_precs b) k j blk ->
  width (fst comp) * width (snd comp) <= 2 ^ 32 -> 0 <= x < width (fst blk) -> 0 <= y < width (snd blk) ->
  take comp (nres (par T c)) r b blk data x y = data (home comp (nres (par T c)) r (b_no b) (fst (fst blk) + x) (fst (snd blk) + y)) /\
  inside (band_rect comp (nres (par T c)) r (b_no b)) (fst (fst blk) + x) (fst (snd blk) + y).
Proof.
  intros psize size T S c r comp b k j blk data x y [B1 B2 B3 B4 B5 B6] At Sz Hx Hy.
  destruct (block_place _ _ _ _ _ _ _ _ _ _ _ B3 B1 B5 B2 At) as (W & H & Sw & Sh & Co & X0 & X1 & Y0 & Y1 & Ins).
  rewrite <- B4 in Co. replace (mkBand (b_no b) (b_rect b) (b_precs b)) with b in Co by (destruct b; reflexivity).
  split; [| apply Ins; unfold inside, GeomProofs.within, width in *; lia].
  unfold take. rewrite Co. rewrite comp_w_is by exact (set_x _ _ _ _ _ _ _ B3). rewrite B4 in *. clear Co W H.
  unfold home. set (X := fst (fst blk) - fst (fst (band_rect comp (nres (par T c)) r (b_no b))) + right_of comp (nres (par T c)) r (b_no b)) in *.
  set (Y := fst (snd blk) - fst (snd (band_rect comp (nres (par T c)) r (b_no b))) + below comp (nres (par T c)) r (b_no b)) in *.
  assert (Q : 0 <= y * width (fst comp) /\ y * width (fst comp) + x < 2 ^ 32) by nia.
  rewrite (u32_id (y * width (fst comp))), u32_id by lia. f_equal. lia.
Qed.

Definition area_at (S : Z -> style) (T : tile) (c r : Z) (comp : rect) (b : band) (data bufs : mem) (cuts : list nat) (blk : rect) : area :=
  mkArea (block_w blk) (block_h blk) (take comp (nres (par T c)) r b blk data) (planes (S c) r (b_no b)) 1 bufs cuts.

Lemma area_code : forall S T c r comp b data buf cuts blk,
  code (s_sty (S c)) (orient r (b_no b)) (area_at S T c r comp b data buf cuts blk) = code_block (S c) comp (nres (par T c)) r b blk data buf.
Proof. reflexivity. Qed.

Lemma area_fits : forall psize size T S c r comp b k j blk data buf cuts, sizes_ok T S -> fits_planes T S data -> resolution T c r -> tile_comp T c = Some comp ->
  band_ok psize size T S c r comp b -> block_at (b_precs b) k j blk -> (forall i, 0 <= buf i <= 255) -> buf 0 <> 255 ->
  Fits (a_w (area_at S T c r comp b (data c) buf cuts blk)) (a_h (area_at S T c r comp b (data c) buf cuts blk)) (orient r (b_no b)) 1 (planes (S c) r (b_no b)) (take comp (nres (par T c)) r b blk (data c)) buf.
Proof.
  intros psize size T S c r comp b k j blk data buf cuts HS HF Hr Ec Hb At Hm H0. destruct (HS c (proj1 Hr)) as (S1 & S2 & S3 & S4 & S5 & S6). pose proof Hb as [B1 B2 B3 B4 B5 B6].
  destruct (block_place _ _ _ _ _ _ _ _ _ _ _ B3 B1 B5 B2 At) as (W & H & Sw & Sh & _). cbn [cblkw cblkh] in Sw, Sh. cbn [area_at a_w a_h]. rewrite W, H.
  constructor; try exact Hm; try lia.
  - assert (P : 2 ^ s_cbw (S c) * 2 ^ s_cbh (S c) <= 2 ^ 12) by (rewrite <- Z.pow_add_r by lia; apply Z.pow_le_mono_r; lia). change 4096 with (2 ^ 12). nia.
  - unfold orient. apply band_cases in B1. destruct (r =? 0); lia.
  - apply S5; [exact (proj2 Hr) | exact B1].
  - intros x y Hx Hy. destruct (take_is psize size T S c r comp b k j blk (data c) x y Hb At (S6 comp Ec) Hx Hy) as [-> I]. apply (HF c r comp); assumption.
  - exact H0.
Qed.

Lemma prec_tree_ok : forall psize size T S c r comp b k q, band_ok psize size T S c r comp b -> nth_error (b_precs b) k = Some q -> cblks q <> [] ->
  exists w h, tgt_create w h = Some (prec_tree q) /\ (w * h)%nat = length (cblks q).
Proof.
  intros psize size T S c r comp b k q [B1 B2 B3 B4 B5 B6] Hq Hne.
  destruct (band_structure _ _ _ _ _ _ _ _ B3 B5) as (gx & ex0 & cx & pw & gy & ey0 & cy & ph & Gx & Hcx & _ & Gy & Hcy & _ & Ln & N).
  destruct (N k q Hq) as (Kx & Ky & _ & _ & Cw & Ch & Lc & _).
  assert (Wr : 0 <= cw q <= 2 ^ 15) by (destruct (cell_spec _ _ _ _ _ Gx Hcx _ Kx) as (_ & _ & s & t & Ec & A & B & _); rewrite Cw, Ec; lia).
  assert (Hr : 0 <= ch q <= 2 ^ 15) by (destruct (cell_spec _ _ _ _ _ Gy Hcy _ Ky) as (_ & _ & s & t & Ec & A & B & _); rewrite Ch, Ec; lia).
  assert (P : 0 < cw q * ch q) by (destruct (cblks q); [contradiction | cbn [length] in Lc; lia]).
  exists (Z.to_nat (cw q)), (Z.to_nat (ch q)). split; [| rewrite Lc, <- Z2Nat.inj_mul by lia; reflexivity].
  destruct (c18_create (Z.to_nat (cw q)) (Z.to_nat (ch q))) as [t Et]; try (rewrite ?Z2Nat.id; nia). unfold prec_tree. rewrite Et. reflexivity.
Qed.

(** ** Places *)

(** The code-blocks at a place, as the packet layer wants them. *)
Definition piece_at (S : Z -> style) (T : tile) (c r k : Z) (comp : rect) (data : Z -> mem) (bufs : key -> mem) (cuts : key -> list nat) (bq : band * precinct) : piece :=
  mkPiece (orient r (b_no (fst bq))) (planes (S c) r (b_no (fst bq)))
    (map (fun jb => area_at S T c r comp (fst bq) (data c) (bufs (c, r, b_no (fst bq), k, fst jb)) (cuts (c, r, b_no (fst bq), k, fst jb)) (snd jb)) (numbered (cblks (snd bq)))).
Definition outside (T : tile) (p : place) : bool :=
  let '(r, c, k) := p in negb ((0 <=? c) && (c <? Z.of_nat (length (t_comps T))) && (0 <=? r) && (r <? nres (par T c)) && (0 <=? k)).
Definition pieces_at (psize size : Z) (T : tile) (S : Z -> style) (data : Z -> mem) (bufs : key -> mem) (cuts : key -> list nat) (p : place) : list piece :=
  let '(r, c, k) := p in
  if outside T p then [] else
  match tile_comp T c with
  | None => []
  | Some comp =>
      match res_bands psize size (par T c) (S c) comp r with
      | None => []
      | Some bs => map (piece_at S T c r k comp data bufs cuts) (at_precinct bs k)
      end
  end.
Definition or_none {A : Type} (f : place -> option (list A)) (p : place) : list A := match f p with Some l => l | None => [] end.

Lemma outside_spec : forall T r c k, outside T (r, c, k) = false <-> resolution T c r /\ 0 <= k.
Proof. intros T r c k. unfold outside, resolution. rewrite negb_false_iff, !andb_true_iff, !Z.leb_le, !Z.ltb_lt. tauto. Qed.

Section Places.
  Context (psize esize dsize : Z) (T : tile) (S : Z -> style) (data : Z -> mem) (bufs : key -> mem) (cuts : key -> list nat) (nlay : nat).
  Hypothesis (HW : wf T) (HF : flags_ok S) (HS : sizes_ok T S) (HUe : sets_up psize esize T S) (HUd : sets_up psize dsize T S)
    (HP : fits_planes T S data) (HB : buffers_ok bufs) (HA : all_passes psize esize T S data bufs cuts nlay).

  Lemma block_usable : forall c r comp bs b k q j blk, resolution T c r -> tile_comp T c = Some comp -> res_bands psize esize (par T c) (S c) comp r = Some bs -> In b bs -> 0 <= k ->
    nth_error (b_precs b) (Z.to_nat k) = Some q -> nth_error (cblks q) j = Some blk ->
    let a := area_at S T c r comp b (data c) (bufs (c, r, b_no b, k, j)) (cuts (c, r, b_no b, k, j)) blk in
    (exists kd, code (s_sty (S c)) (orient r (b_no b)) a = Some kd) /\
    usable (s_sty (S c)) (s_roi (S c)) (orient r (b_no b)) (planes (S c) r (b_no b)) nlay a /\ complete (s_sty (S c)) (orient r (b_no b)) nlay a.
  Proof.
    intros c r comp bs b k q j blk Hr Ec Eb Ib Hk Hq Hj a.
    pose proof (bands_ok psize esize T S c r comp bs HW HS Hr Ec (proj1 HUe) (proj1 (proj2 HUe)) Eb) as BO. rewrite Forall_forall in BO. pose proof (BO b Ib) as B.
    assert (At : block_at (b_precs b) (Z.to_nat k) j blk) by (exists q; split; assumption).
    destruct (HB (c, r, b_no b, k, j)) as [M1 M2].
    pose proof (area_fits psize esize T S c r comp b (Z.to_nat k) j blk data (bufs (c, r, b_no b, k, j)) (cuts (c, r, b_no b, k, j)) HS HP Hr Ec B At M1 M2) as F.
    destruct (HS c (proj1 Hr)) as (_ & _ & _ & _ & S5 & _). destruct (S5 r (b_no b) (proj2 Hr) (bo_in _ _ _ _ _ _ _ _ B)) as [P1 P2]. destruct (HF c) as (F1 & F2 & F3).
    destruct (c36_round_trip 1 (a_w a) (a_h a) (orient r (b_no b)) (s_sty (S c)) (planes (S c) r (b_no b)) (a_x a) (a_mem a) (s_roi (S c)) F F2 ltac:(lia) F3) as (kd & E & _).
    change (code (s_sty (S c)) (orient r (b_no b)) a = Some kd) in E. split; [exists kd; exact E |].
    destruct (HA c r comp bs b k q j blk kd Hr Ec Eb Ib Hk Hq Hj E) as (A1 & A2 & A3). split.
    - unfold usable. split; [exact F |]. split; [cbn [a_bits a area_at]; lia |]. split; [cbn [a_bits a area_at]; lia |]. split; [exact A1 |]. intros k' E'. assert (k' = kd) as -> by congruence. exact A2.
    - intros k' E'. assert (k' = kd) as -> by congruence. exact A3.
  Qed.

  Lemma enc_total : forall p, enc_place psize esize T S data bufs cuts p <> None.
  Proof.
    intros [[r c] k]. unfold enc_place. change (negb _) with (outside T (r, c, k)). destruct (outside T (r, c, k)) eqn:O; [discriminate |]. apply outside_spec in O. destruct O as [Hr Hk].
    destruct (tile_comp_some T c HW (proj1 Hr)) as (comp & Ec & _). rewrite Ec. pose proof (proj2 (proj2 HUe) c r comp Hr Ec) as U. destruct (res_bands psize esize (par T c) (S c) comp r) as [bs |] eqn:Eb; [| contradiction].
    apply all_some_total. intros [b q] I. apply at_precinct_in in I. destruct I as [Ib Iq].
    match goal with |- match all_some (map ?f ?l) with _ => _ end <> None => assert (G : all_some (map f l) <> None); [| destruct (all_some (map f l)); [discriminate | contradiction]] end.
    apply all_some_total. intros [j blk] J. apply numbered_in in J.
    destruct (block_usable c r comp bs b k q j blk Hr Ec Eb Ib Hk Iq J) as [(kd & E) _]. rewrite area_code in E. rewrite E. discriminate.
  Qed.

  Lemma dec_total : forall p, dec_place psize dsize T S p <> None.
  Proof.
    intros [[r c] k]. unfold dec_place. change (negb _) with (outside T (r, c, k)). destruct (outside T (r, c, k)) eqn:O; [discriminate |]. apply outside_spec in O. destruct O as [Hr Hk].
    destruct (tile_comp_some T c HW (proj1 Hr)) as (comp & Ec & _). rewrite Ec. pose proof (proj2 (proj2 HUd) c r comp Hr Ec) as U. destruct (res_bands psize dsize (par T c) (S c) comp r); [discriminate | contradiction].
  Qed.

  Lemma place_prepared : forall p, all_prepared (s_sty (S (comp_of p))) (s_roi (S (comp_of p))) nlay (pieces_at psize esize T S data bufs cuts p)
      (or_none (enc_place psize esize T S data bufs cuts) p) (or_none (dec_place psize dsize T S) p) /\
    all_complete (s_sty (S (comp_of p))) nlay (pieces_at psize esize T S data bufs cuts p).
  Proof.
    intros [[r c] k]. cbn [comp_of fst snd]. unfold or_none. pose proof (enc_total (r, c, k)) as TE. pose proof (dec_total (r, c, k)) as TD.
    destruct (enc_place psize esize T S data bufs cuts (r, c, k)) as [es |] eqn:EE; [| contradiction]. destruct (dec_place psize dsize T S (r, c, k)) as [ds |] eqn:ED; [| contradiction]. clear TE TD.
    unfold pieces_at. unfold enc_place in EE. unfold dec_place in ED.
    change (negb _) with (outside T (r, c, k)) in EE, ED. destruct (outside T (r, c, k)) eqn:O; [assert (es = []) as -> by congruence; assert (ds = []) as -> by congruence; split; constructor |].
    apply outside_spec in O. destruct O as [Hr Hk]. destruct (tile_comp T c) as [comp |] eqn:Ec; [| discriminate].
    destruct (res_bands psize esize (par T c) (S c) comp r) as [bs |] eqn:Eb; [| discriminate]. destruct (res_bands psize dsize (par T c) (S c) comp r) as [bs' |] eqn:Eb'; [| discriminate].
    assert (bs' = bs) as -> by (eapply bands_same; eassumption). apply some_inj in ED. subst ds.
    pose proof (bands_ok psize esize T S c r comp bs HW HS Hr Ec (proj1 HUe) (proj1 (proj2 HUe)) Eb) as BO. rewrite Forall_forall in BO.
    apply all_some_map in EE. assert (IN : forall bq, In bq (at_precinct bs k) -> In (fst bq) bs /\ nth_error (b_precs (fst bq)) (Z.to_nat k) = Some (snd bq)) by (intros [b q] I; apply at_precinct_in; exact I).
    revert IN EE. generalize (at_precinct bs k). intros l. revert es. induction l as [| [b q] l IH]; intros es IN EE; inversion EE as [| ? e ? es' E1 E2]; subst; [split; constructor |].
    destruct (IH es' (fun bq I => IN bq (or_intror I)) E2) as [IH1 IH2]. destruct (IN (b, q) (or_introl eq_refl)) as [Ib Iq]. cbn [fst snd] in Ib, Iq. pose proof (BO b Ib) as B.
    match type of E1 with match all_some ?x with _ => _ end = _ => destruct (all_some x) as [cl |] eqn:EC; [| discriminate] end. apply some_inj in E1. subst e. apply all_some_map in EC.
    assert (JN : forall jb, In jb (numbered (cblks q)) -> nth_error (cblks q) (fst jb) = Some (snd jb)) by (intros [j blk] J; apply numbered_in; exact J).
    assert (US : Forall (fun a => usable (s_sty (S c)) (s_roi (S c)) (orient r (b_no b)) (planes (S c) r (b_no b)) nlay a /\ complete (s_sty (S c)) (orient r (b_no b)) nlay a) (pc_areas (piece_at S T c r k comp data bufs cuts (b, q)))).
    { cbn [piece_at pc_areas fst snd]. apply Forall_map, Forall_forall. intros [j blk] J. cbn [fst snd]. exact (proj2 (block_usable c r comp bs b k q j blk Hr Ec Eb Ib Hk Iq (JN _ J))). }
    cbn [map]. split; constructor; try assumption.
    2:{ eapply Forall_impl; [| exact US]. intros a [_ X]. exact X. }
    unfold prepared. cbn [eb_numbps db_numbps eb_blocks db_blocks eb_incl eb_imsb db_incl db_imsb]. split; [reflexivity |]. split; [reflexivity |].
    split. { cbn [piece_at pc_planes fst]. destruct (HS c (proj1 Hr)) as (_ & _ & _ & _ & S5 & _). destruct (S5 r (b_no b) (proj2 Hr) (bo_in _ _ _ _ _ _ _ _ B)); lia. }
    split. { eapply Forall_impl; [| exact US]. intros a [X _]. exact X. }
    split.
    { cbn [piece_at pc_areas pc_orient fst snd]. clear - EC. induction EC as [| [j blk] e jl el X EC IH]; cbn [map]; constructor; [| exact IH]. cbn [fst snd]. unfold handed.
      destruct (code_block _ _ _ _ _ _ _ _) as [kd |] eqn:Ek; [| discriminate]. exists kd. split; [rewrite area_code; exact Ek | cbn [area_at a_cuts]; congruence]. }
    assert (L : length (numbered (cblks q)) = length (cblks q)) by (unfold numbered; rewrite combine_length, seq_length; lia).
    split; [cbn [piece_at pc_areas fst snd]; rewrite !map_length, L; reflexivity |].
    split; [apply Forall_map, Forall_forall; intros x _; split; reflexivity |].
    cbn [piece_at pc_areas fst snd]. destruct (cblks q) as [| blk0 bl] eqn:Eq; [left; reflexivity | right]. rewrite <- Eq in *.
    destruct (prec_tree_ok psize esize T S c r comp b (Z.to_nat k) q B Iq ltac:(congruence)) as (w & h & T1 & T2). exists w, h, (prec_tree q). split; [exact T1 |].
    split; [rewrite map_length, L; exact T2 |]. repeat split; apply reached_start.
  Qed.
End Places.
