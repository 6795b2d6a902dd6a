(** Property C58: the coefficients of a tile, through code-blocks and packets. *)

From Coq Require Import ZArith List Bool Arith Lia ZifyNat.
From Verif Require Import I32 MathModel Mem BioSpec GeomModel GeomProofs GeomCover GeomProps TgtModel
  T2CodesModel Ints T2PacketModel T2PacketProps T1Model T1Props CblkModel PiModel PiSpec PiDeliver PiProps PacketsModel PacketsProps TileModel TileGeom TileProofs.
Import ListNotations.
Local Open Scope Z_scope.

(** ** Writing blocks *)

Lemma put_spec : forall (w x y bw bh roi : Z) (v d z : mem), 0 <= bw -> 0 <= bh -> bw * bh <= 4096 ->
  (forall i j, 0 <= i < bw -> 0 <= j < bh -> output roi (v (j * bw + i)) = z (y * w + x + (j * w + i))) ->
  let d' := put w x y bw bh roi v d in
  (forall a, d' a = d a \/ d' a = z a) /\ (forall i j, 0 <= i < bw -> 0 <= j < bh -> d' (y * w + x + (j * w + i)) = z (y * w + x + (j * w + i))).
Proof.
  intros w x y bw bh roi v d z Hw Hh Hs HV. cbn zeta. unfold put.
  set (P := fun (j : Z) (e : mem) => (forall a, e a = d a \/ e a = z a) /\ (forall i j', 0 <= i < bw -> 0 <= j' < j -> e (y * w + x + (j' * w + i)) = z (y * w + x + (j' * w + i)))).
  apply (for_ind P); [lia | unfold P; split; [intros a; left; reflexivity | intros; lia] |]. intros j e Hj [E1 E2].
  set (Q := fun (i : Z) (f : mem) => (forall a, f a = d a \/ f a = z a) /\ (forall i' j', 0 <= i' < bw -> 0 <= j' < j -> f (y * w + x + (j' * w + i')) = z (y * w + x + (j' * w + i'))) /\
    (forall i', 0 <= i' < i -> f (y * w + x + (j * w + i')) = z (y * w + x + (j * w + i')))).
  assert (G : Q bw (for_to 0 bw (fun i d => Mem.upd d (y * w + x + (j * w + i)) (halved (roi_unshift roi (v (u32 (u32 (j * bw) + i)))))) e)).
  { apply (for_ind Q); [lia | unfold Q; split; [exact E1 |]; split; [exact E2 | intros; lia] |]. intros i f Hi (F1 & F2 & F3).
    assert (V : halved (roi_unshift roi (v (u32 (u32 (j * bw) + i)))) = z (y * w + x + (j * w + i))).
    { rewrite (u32_id (j * bw)) by nia. rewrite u32_id by nia. apply HV; lia. }
    rewrite V. unfold Q, Mem.upd. split; [| split].
    - intros a. destruct (Z.eqb_spec a (y * w + x + (j * w + i))) as [-> |]; [right; reflexivity | apply F1].
    - intros i' j' Hi' Hj'. destruct (Z.eqb_spec (y * w + x + (j' * w + i')) (y * w + x + (j * w + i))) as [-> |]; [reflexivity | apply F2; lia].
    - intros i' Hi'. destruct (Z.eqb_spec (y * w + x + (j * w + i')) (y * w + x + (j * w + i))) as [-> |]; [reflexivity | apply F3; lia]. }
  destruct G as (G1 & G2 & G3). split; [exact G1 |]. intros i j' Hi Hj'. destruct (Z.eq_dec j' j) as [-> |]; [apply G3; lia | apply G2; lia].
Qed.

(** A block whose data stand for the coefficients [z] of the component. *)
Definition right_block (psize size : Z) (T : tile) (S : Z -> style) (c : Z) (comp : rect) (z : mem) (job : Z * band * rect * dblk) : Prop :=
  let '(r, b, blk, e) := job in
  resolution T c r /\ band_ok psize size T S c r comp b /\ (exists k j, block_at (b_precs b) k j blk) /\
  exists v, decode_block (block_w blk) (block_h blk) (orient r (b_no b)) (s_roi (S c)) (s_sty (S c)) e = Some v /\
    forall x y, 0 <= x < block_w blk -> 0 <= y < block_h blk -> output (s_roi (S c)) (v (y * block_w blk + x)) = take comp (nres (par T c)) r b blk z x y.

Lemma show_blocks_spec : forall psize size T S c comp z, sizes_ok T S -> tile_comp T c = Some comp -> forall l d, Forall (right_block psize size T S c comp z) l ->
  exists d', show_blocks (S c) comp (nres (par T c)) l d = Some d' /\ (forall a, d' a = d a \/ d' a = z a) /\
    forall r b blk e x y, In (r, b, blk, e) l -> inside blk x y -> d' (home comp (nres (par T c)) r (b_no b) x y) = z (home comp (nres (par T c)) r (b_no b) x y).
Proof.
  intros psize size T S c comp z HS Ec. induction l as [| [[[r b] blk] e] l IH]; intros d F.
  - exists d. split; [reflexivity |]. split; [left; reflexivity | intros r b blk e x y []].
  - pose proof (Forall_inv F) as (Hr & B & (k & j & At) & v & D & V). apply Forall_inv_tail in F. cbn [show_blocks]. unfold show_block. rewrite D.
    destruct (HS c (proj1 Hr)) as (S1 & S2 & S3 & S4 & S5 & S6). pose proof B as [B1 B2 B3 B4 B5 B6].
    destruct (block_place _ _ _ _ _ _ _ _ _ _ _ B3 B1 B5 B2 At) as (W & H & Sw & Sh & Co & X0 & X1 & Y0 & Y1 & Ins). cbn [cblkw cblkh] in Sw, Sh.
    rewrite <- B4 in Co. replace (mkBand (b_no b) (b_rect b) (b_precs b)) with b in Co by (destruct b; reflexivity). rewrite Co. rewrite W, H in *. rewrite B4.
    assert (TW : top_w comp (nres (par T c)) = width (fst comp)).
    { unfold top_w. rewrite top_res by (first [exact (set_x _ _ _ _ _ _ _ B3) | exact (set_y _ _ _ _ _ _ _ B3)]). exact (comp_w_is comp (set_x _ _ _ _ _ _ _ B3)). }
    rewrite TW. set (X := fst (fst blk) - fst (fst (band_rect comp (nres (par T c)) r (b_no b))) + right_of comp (nres (par T c)) r (b_no b)) in *.
    set (Y := fst (snd blk) - fst (snd (band_rect comp (nres (par T c)) r (b_no b))) + below comp (nres (par T c)) r (b_no b)) in *.
    assert (HM : forall x y, home comp (nres (par T c)) r (b_no b) (fst (fst blk) + x) (fst (snd blk) + y) = Y * width (fst comp) + X + (y * width (fst comp) + x)) by (intros x y; unfold home; subst X Y; lia).
    destruct (put_spec (width (fst comp)) X Y (width (fst blk)) (width (snd blk)) (s_roi (S c)) v d z) as [P1 P2]; [lia | lia | | |].
    { assert (P : 2 ^ s_cbw (S c) * 2 ^ s_cbh (S c) <= 2 ^ 12) by (rewrite <- Z.pow_add_r by lia; apply Z.pow_le_mono_r; lia). change 4096 with (2 ^ 12). nia. }
    { intros x y Hx Hy. rewrite V by assumption. rewrite <- HM. exact (proj1 (take_is psize size T S c r comp b k j blk z x y B At (S6 comp Ec) Hx Hy)). }
    destruct (IH (put (width (fst comp)) X Y (width (fst blk)) (width (snd blk)) (s_roi (S c)) v d) F) as (d' & E & Q1 & Q2). exists d'. split; [exact E |]. split.
    + intros a. destruct (Q1 a) as [-> | ->]; [apply P1 | right; reflexivity].
    + intros r' b' blk' e' x y [X' | I] Hin; [| eapply Q2; eassumption]. injection X' as <- <- <- <-. unfold inside, GeomProofs.within in Hin.
      replace x with (fst (fst blk) + (x - fst (fst blk))) by lia. replace y with (fst (snd blk) + (y - fst (snd blk))) by lia. rewrite HM.
      destruct (Q1 (Y * width (fst comp) + X + ((y - fst (snd blk)) * width (fst comp) + (x - fst (fst blk))))) as [-> | ->]; [| reflexivity]. apply P2; unfold width; lia.
Qed.

(** ** The decoder's loops *)

Section Show.
  Context (psize esize dsize : Z) (T : tile) (S : Z -> style) (data : Z -> mem) (bufs : key -> mem) (cuts : key -> list nat).
  Hypothesis (HW : wf T) (HS : sizes_ok T S) (HUe : sets_up psize esize T S) (HUd : sets_up psize dsize T S).
  Context (ds : place -> list dband).
  Hypothesis (HX : forall r c k, resolution T c r -> 0 <= k < wide T c r * high T c r -> all_exact (s_sty (S c)) (s_roi (S c)) (pieces_at psize esize T S data bufs cuts (r, c, k)) (ds (r, c, k))).

  (** What the packets left for band [i] and precinct [k]. *)
  Lemma found : forall c r comp bs i b k q, resolution T c r -> tile_comp T c = Some comp -> res_bands psize dsize (par T c) (S c) comp r = Some bs ->
    nth_error bs i = Some b -> nth_error (b_precs b) k = Some q ->
    band_ok psize dsize T S c r comp b /\
    exists d, nth_error (ds (r, c, Z.of_nat k)) i = Some d /\
      Forall2 (fun blk e => exists v, decode_block (block_w blk) (block_h blk) (orient r (b_no b)) (s_roi (S c)) (s_sty (S c)) e = Some v /\
        forall x y, 0 <= x < block_w blk -> 0 <= y < block_h blk -> output (s_roi (S c)) (v (y * block_w blk + x)) = take comp (nres (par T c)) r b blk (data c) x y) (cblks q) (db_blocks d).
  Proof.
    intros c r comp bs i b k q Hr Ec Eb Hi Hq.
    pose proof (bands_ok psize dsize T S c r comp bs HW HS Hr Ec (proj1 HUd) (proj1 (proj2 HUd)) Eb) as BO. rewrite Forall_forall in BO. pose proof (BO b (nth_error_In _ _ Hi)) as B. split; [exact B |].
    assert (Lk : (k < length (b_precs b))%nat) by (apply nth_error_Some; congruence). pose proof (bo_count _ _ _ _ _ _ _ _ B) as Cb.
    assert (Hk : 0 <= Z.of_nat k < wide T c r * high T c r) by lia. specialize (HX r c (Z.of_nat k) Hr Hk).
    assert (PE : pieces_at psize esize T S data bufs cuts (r, c, Z.of_nat k) = map (piece_at S T c r (Z.of_nat k) comp data bufs cuts) (at_precinct bs (Z.of_nat k))).
    { unfold pieces_at. assert (outside T (r, c, Z.of_nat k) = false) as -> by (apply outside_spec; split; [exact Hr | lia]). rewrite Ec.
      pose proof (proj2 (proj2 HUe) c r comp Hr Ec) as U. destruct (res_bands psize esize (par T c) (S c) comp r) as [bs' |] eqn:Eb'; [| contradiction]. rewrite (bands_same _ _ _ _ _ _ _ _ _ Eb' Eb). reflexivity. }
    rewrite PE in HX.
    assert (N : nth_error (at_precinct bs (Z.of_nat k)) i = Some (b, q)).
    { apply at_precinct_nth; [| exact Hi | rewrite Nat2Z.id; exact Hq]. intros b' I'. pose proof (bo_count _ _ _ _ _ _ _ _ (BO b' I')). lia. }
    assert (NP : nth_error (map (piece_at S T c r (Z.of_nat k) comp data bufs cuts) (at_precinct bs (Z.of_nat k))) i = Some (piece_at S T c r (Z.of_nat k) comp data bufs cuts (b, q))) by (rewrite nth_error_map, N; reflexivity).
    destruct (nth_error (ds (r, c, Z.of_nat k)) i) as [d |] eqn:Ed.
    2:{ apply nth_error_None in Ed. rewrite <- (forall2_len _ _ _ HX) in Ed. apply nth_error_None in Ed. congruence. }
    exists d. split; [reflexivity |]. pose proof (forall2_nth _ _ _ HX i _ _ NP Ed) as X. cbn [piece_at pc_areas pc_orient fst snd] in X. clear - X.
    assert (G : forall l s m, Forall2 (exact (s_sty (S c)) (s_roi (S c)) (orient r (b_no b)))
        (map (fun jb => area_at S T c r comp b (data c) (bufs (c, r, b_no b, Z.of_nat k, fst jb)) (cuts (c, r, b_no b, Z.of_nat k, fst jb)) (snd jb)) (combine (seq s (length l)) l)) m ->
      Forall2 (fun blk e => exists v, decode_block (block_w blk) (block_h blk) (orient r (b_no b)) (s_roi (S c)) (s_sty (S c)) e = Some v /\
        forall x y, 0 <= x < block_w blk -> 0 <= y < block_h blk -> output (s_roi (S c)) (v (y * block_w blk + x)) = take comp (nres (par T c)) r b blk (data c) x y) l m).
    { induction l as [| blk l IH]; intros s m Hm; cbn [length seq combine map] in Hm; inversion Hm as [| ? e ? m' H1 H2]; subst; [constructor |]. constructor; [exact H1 | eapply IH; exact H2]. }
    eapply G. exact X.
  Qed.

  Lemma show_ok : forall c d, 0 <= c < Z.of_nat (length (t_comps T)) -> exists comp d', tile_comp T c = Some comp /\ show_comp psize dsize T S ds c d = Some d' /\
    forall i, 0 <= i < width (fst comp) * width (snd comp) -> d' i = data c i.
  Proof.
    intros c d Hc. destruct (tile_comp_some T c HW Hc) as (comp & Ec & Cx & Cy). exists comp. unfold show_comp. rewrite Ec.
    assert (RS : forall r, In r (upto (nres (par T c))) -> resolution T c r).
    { intros r I. unfold upto in I. apply in_map_iff in I. destruct I as (n & <- & I). apply in_seq in I. split; [exact Hc | lia]. }
    match goal with |- context [all_some (map ?f ?l)] => assert (TT : all_some (map f l) <> None) by
      (apply all_some_total; intros r I; pose proof (proj2 (proj2 HUd) c r comp (RS r I) Ec) as U; destruct (res_bands psize dsize (par T c) (S c) comp r); [discriminate | contradiction]);
      destruct (all_some (map f l)) as [ls |] eqn:EL; [| contradiction] end. clear TT. apply all_some_map in EL.
    assert (JOBS : forall r b blk e, In (r, b, blk, e) (concat ls) <-> exists bs i k q d0 j, resolution T c r /\ res_bands psize dsize (par T c) (S c) comp r = Some bs /\
      nth_error bs i = Some b /\ nth_error (b_precs b) k = Some q /\ nth_error (ds (r, c, Z.of_nat k)) i = Some d0 /\ nth_error (cblks q) j = Some blk /\ nth_error (db_blocks d0) j = Some e).
    { intros r b blk e. rewrite in_concat. split.
      - intros (l & Il & I). apply In_nth_error in Il. destruct Il as [m Em].
        destruct (nth_error (upto (nres (par T c))) m) as [r0 |] eqn:Er. 2:{ apply nth_error_None in Er. rewrite (forall2_len _ _ _ EL) in Er. apply nth_error_None in Er. congruence. }
        pose proof (forall2_nth _ _ _ EL m _ _ Er Em) as X. cbv beta in X. destruct (res_bands psize dsize (par T c) (S c) comp r0) as [bs |] eqn:Eb; [| discriminate]. apply some_inj in X. subst l.
        unfold res_blocks in I. apply in_flat_map in I. destruct I as ([i b'] & Ib & I). apply numbered_in in Ib. apply in_flat_map in I. destruct I as ([k q] & Iq & I). apply numbered_in in Iq.
        destruct (nth_error (ds (r0, c, Z.of_nat k)) i) as [d0 |] eqn:Ed; [| destruct I]. apply in_map_iff in I. destruct I as ([blk' e'] & X & I). cbn [fst snd] in X. injection X as -> -> -> ->.
        apply In_nth_error in I. destruct I as [j I]. rewrite combine_nth_error in I. destruct (nth_error (cblks q) j) as [blk2 |] eqn:E1; [| discriminate]. destruct (nth_error (db_blocks d0) j) as [e2 |] eqn:E2; [| discriminate].
        assert (blk2 = blk /\ e2 = e) as [-> ->] by (split; congruence). exists bs, i, k, q, d0, j. repeat split; try assumption; apply (RS r (nth_error_In _ _ Er)).
      - intros (bs & i & k & q & d0 & j & Hr & Eb & Ei & Ek & Ed & Ej & Ee).
        assert (Er : nth_error (upto (nres (par T c))) (Z.to_nat r) = Some r). { destruct Hr as [_ Hr]. rewrite upto_nth by lia. f_equal. lia. }
        destruct (nth_error ls (Z.to_nat r)) as [l |] eqn:El. 2:{ apply nth_error_None in El. rewrite <- (forall2_len _ _ _ EL) in El. apply nth_error_None in El. congruence. }
        exists l. split; [eapply nth_error_In; exact El |]. pose proof (forall2_nth _ _ _ EL _ _ _ Er El) as X. cbv beta in X. rewrite Eb in X. apply some_inj in X. subst l.
        unfold res_blocks. apply in_flat_map. exists (i, b). split; [apply numbered_in; exact Ei |]. apply in_flat_map. exists (k, q). split; [apply numbered_in; exact Ek |]. rewrite Ed.
        apply in_map_iff. exists (blk, e). split; [reflexivity |]. apply (nth_error_In _ j). rewrite combine_nth_error, Ej, Ee. reflexivity. }
    assert (R : Forall (right_block psize dsize T S c comp (data c)) (concat ls)).
    { apply Forall_forall. intros [[[r b] blk] e] I. apply JOBS in I. destruct I as (bs & i & k & q & d0 & j & Hr & Eb & Ei & Ek & Ed & Ej & Ee).
      destruct (found c r comp bs i b k q Hr Ec Eb Ei Ek) as (B & d1 & Ed1 & F). assert (d1 = d0) as -> by congruence.
      split; [exact Hr |]. split; [exact B |]. split; [exists k, j, q; split; assumption |]. exact (forall2_nth _ _ _ F j _ _ Ej Ee). }
    destruct (show_blocks_spec psize dsize T S c comp (data c) HS Ec (concat ls) d R) as (d' & E & _ & Q). exists d'. split; [reflexivity |]. split; [exact E |].
    intros a Ha. assert (W0 : 0 < width (fst comp)) by (destruct (Z_lt_ge_dec 0 (width (fst comp))); [assumption | exfalso; destruct Cx as (_ & _ & [? ?]), Cy as (_ & _ & [? ?]); unfold width in *; nia]).
    destruct (flat_split (width (fst comp)) (width (snd comp)) a W0 Ha) as (A1 & A2 & A3).
    destruct (wf_params T c 0 HW) as (_ & _ & P3 & _). { split; [exact Hc |]. destruct HW as (_ & _ & _ & _ & _ & _ & F & _). assert (I : In (par T c) (t_comps T)) by (apply nth_In; lia). rewrite Forall_forall in F. specialize (F _ I). lia. }
    destruct (home_cover comp (nres (par T c)) (proj2 (proj2 Cx)) (proj2 (proj2 Cy)) P3 (a mod width (fst comp)) (a / width (fst comp)) A1 A2) as (r & b0 & x & y & Hr & Hb & Hin & Hh).
    assert (RR : resolution T c r) by (split; assumption).
    assert (Ne : is_band_empty (band_rect comp (nres (par T c)) r b0) = false).
    { unfold is_band_empty. apply orb_false_iff. unfold inside, GeomProofs.within in Hin. split; apply Z.eqb_neq; lia. }
    pose proof (proj2 (proj2 HUd) c r comp RR Ec) as U. destruct (res_bands psize dsize (par T c) (S c) comp r) as [bs |] eqn:Eb; [| contradiction]. clear U.
    pose proof Eb as Eb2. unfold res_bands in Eb2. apply all_some_map in Eb2. set (fl := filter _ _) in Eb2.
    assert (If : In b0 fl) by (apply filter_In; split; [exact Hb | rewrite Ne; reflexivity]). apply In_nth_error in If. destruct If as [i Ei].
    destruct (nth_error bs i) as [b |] eqn:Eb3. 2:{ apply nth_error_None in Eb3. rewrite <- (forall2_len _ _ _ Eb2) in Eb3. apply nth_error_None in Eb3. congruence. }
    pose proof (forall2_nth _ _ _ Eb2 i _ _ Ei Eb3) as X. cbv beta in X. destruct (band_precincts _ _ _ _ _ _ b0) as [ps |] eqn:Ep; [| discriminate]. apply some_inj in X.
    pose proof (bands_ok psize dsize T S c r comp bs HW HS RR Ec (proj1 HUd) (proj1 (proj2 HUd)) Eb) as BO. rewrite Forall_forall in BO. pose proof (BO b (nth_error_In _ _ Eb3)) as [B1 B2 B3 B4 B5 B6].
    assert (Nb : b_no b = b0) by (rewrite <- X; reflexivity). rewrite Nb in *.
    destruct (c38_partition _ _ _ _ _ _ _ _ B3 B5) as (C1 & _ & _). destruct (C1 x y Hin) as (k & j & blk & (q & Hq & Hj) & Hblk).
    destruct (found c r comp bs i b k q RR Ec Eb Eb3 Hq) as (_ & d0 & Ed & F).
    destruct (nth_error (db_blocks d0) j) as [e |] eqn:Ee. 2:{ apply nth_error_None in Ee. rewrite <- (forall2_len _ _ _ F) in Ee. apply nth_error_None in Ee. congruence. }
    assert (Ij : In (r, b, blk, e) (concat ls)) by (apply JOBS; exists bs, i, k, q, d0, j; repeat split; try assumption; apply RR).
    pose proof (Q r b blk e x y Ij Hblk) as Z1. rewrite Nb, Hh in Z1. replace (a / width (fst comp) * width (fst comp) + a mod width (fst comp)) with a in Z1 by lia. exact Z1.
  Qed.
End Show.

(** ** C58 *)

(** The coefficients of the components of a tile ([data]) are coded block by
    block, the blocks put into packets, the packets written in any number of
    tile-parts; read back and decoded, they fill the components again, whatever
    was in their memory before. *)
Theorem c58_tile : forall T o S psize esize dsize csty nlay data bufs cuts,
  wf T -> order_ok T o -> t_layers T = Z.of_nat nlay -> (1 <= nlay <= 999)%nat -> flags_ok S -> sizes_ok T S ->
  sets_up psize esize T S -> sets_up psize dsize T S -> fits_planes T S data -> buffers_ok bufs -> all_passes psize esize T S data bufs cuts nlay ->
  let es := enc_place psize esize T S data bufs cuts in let ds := dec_place psize dsize T S in
  (forall p, es p <> None /\ ds p <> None) /\
  exists out, encodes T [all_of T o] out /\ decodes T [all_of T o] out /\
  (exists R, forall packno parts, concat (map snd parts) = out -> Forall (fun p => R * Z.of_nat (length (snd p)) <= fst p < 2 ^ 32) parts ->
    exists bytes es', write_parts csty packno (t_layers T) (or_none es) parts = Some (bytes, es')) /\
  forall packno parts bytes es' rest, concat (map snd parts) = out -> write_parts csty packno (t_layers T) (or_none es) parts = Some (bytes, es') -> Forall byte_range rest ->
  exists ds', read_packets (fun c => s_sty (S c)) csty (fun _ => true) (or_none ds) out (concat bytes ++ rest) = Some (ds', rest) /\
    forall c m, 0 <= c < Z.of_nat (length (t_comps T)) ->
    exists comp m', tile_comp T c = Some comp /\ show_comp psize dsize T S ds' c m = Some m' /\
      forall i, 0 <= i < width (fst comp) * width (snd comp) -> m' i = data c i.
Proof.
  intros T o S psize esize dsize csty nlay data bufs cuts HW HO HN H9 HF HS HUe HUd HP HB HA es ds.
  split; [intros p; split; [apply (enc_total psize esize T S data bufs cuts nlay); assumption | apply dec_total; assumption] |].
  pose proof (place_prepared psize esize dsize T S data bufs cuts nlay HW HF HS HUe HUd HP HB HA) as PP.
  destruct (c57_tile T o (fun c => s_sty (S c)) (fun c => s_roi (S c)) csty nlay (pieces_at psize esize T S data bufs cuts) (or_none es) (or_none ds) HW HO HN ltac:(lia) HF (fun p => proj1 (PP p)))
    as (out & E & D & RM & TR). exists out. split; [exact E |]. split; [exact D |]. split; [exact RM |].
  intros packno parts bytes es' rest EP HWr Hrest. destruct (TR packno parts bytes es' rest EP HWr Hrest) as (ds' & RD & SH). exists ds'. split; [exact RD |].
  intros c m Hc. apply (show_ok psize esize dsize T S data bufs cuts HW HS HUe HUd ds'); [| exact Hc].
  intros r c' k Hr Hk. apply (proj2 (SH 0 r c' k ltac:(destruct Hr; unfold valid; repeat split; lia))). exact (proj2 (PP (r, c', k))).
Qed.

(** ** Example *)

(** Two components, the second of half the resolution; the tile begins at odd
    places. Precincts of 4 by 4 samples and code-blocks of 4 by 4 (2 by 2 in the
    higher bands, by their precincts); two layers; two tile-parts. *)
Definition demo_tile : tile := mkTile 3 5 9 10 2 [mkParams 1 1 [(2, 2); (2, 2)]; mkParams 2 2 [(3, 3)]].
Definition demo_style (c : Z) : style := mkStyle 2 2 4 c 1 [9; 9; 9; 9; 9; 9; 9].
Definition demo_data (c i : Z) : Z := ((i + 1) * (i + 7 + c) * 37) mod 7 - 3.
Definition demo_passes (q : key) : nat :=
  let '(c, r, b0, k, j) := q in
  match tile_comp demo_tile c with
  | None => 0%nat
  | Some comp =>
      match res_bands 24 64 (par demo_tile c) (demo_style c) comp r with
      | None => 0%nat
      | Some bs =>
          match find (fun b => b_no b =? b0) bs with
          | None => 0%nat
          | Some b => match nth_error (b_precs b) (Z.to_nat k) with
                      | None => 0%nat
                      | Some q => match code_block (demo_style c) comp (nres (par demo_tile c)) r b (nth j (cblks q) ((0, 0), (0, 0))) (demo_data c) zeroes with
                                  | None => 0%nat
                                  | Some kd => length (k_rates kd)
                                  end
                      end
          end
      end
  end.
Definition demo_cuts (q : key) : list nat := let n := demo_passes q in [(n / 2)%nat; n].
Definition demo_packets : list packet :=
  flat_map (fun l => flat_map (fun r => flat_map (fun c => if r <? nres (par demo_tile c) then map (fun k => (l, r, c, k)) (upto (wide demo_tile c r * high demo_tile c r)) else []) [0; 1]) [0; 1]) [0; 1].
Definition demo_write (es : place -> list eband) : option (list (list Z)) :=
  match write_parts 6 0 2 es [(2000, firstn 7 demo_packets); (2000, skipn 7 demo_packets)] with Some (bytes, _) => Some bytes | None => None end.
Definition demo_show (ds : place -> list dband) : list (option (list Z)) :=
  map (fun cn => match show_comp 24 88 demo_tile demo_style ds (fst cn) (fun _ => 999) with Some m => Some (map m (upto (snd cn))) | None => None end) [(0, 30); (1, 6)].
Definition demo_read (ds : place -> list dband) (bytes : list Z) : option (list Z * list (option (list Z))) :=
  match read_packets (fun c => s_sty (demo_style c)) 6 (fun _ => true) ds demo_packets bytes with Some (ds, rest) => Some (rest, demo_show ds) | None => None end.
Definition demo_pass (es : place -> list eband) (ds : place -> list dband) : option (list nat * (list Z * list (option (list Z)))) :=
  match demo_write es with
  | None => None
  | Some bytes => match demo_read ds (concat bytes ++ [7; 8]) with Some x => Some (map (@length Z) bytes, x) | None => None end
  end.
Definition demo_round : option (list nat * (list Z * list (option (list Z)))) :=
  demo_pass (or_none (enc_place 24 64 demo_tile demo_style demo_data (fun _ => zeroes) demo_cuts)) (or_none (dec_place 24 88 demo_tile demo_style)).

Example c58_example :
  (tile_comp demo_tile 0, tile_comp demo_tile 1) = (Some ((3, 9), (5, 10)), Some ((2, 5), (3, 5))) /\
  demo_round = Some ([104%nat; 236%nat], ([7; 8],
    [Some [-3; 1; 2; 0; 2; 1; -3; -3; 1; 2; 0; 2; 1; -3; -3; 1; 2; 0; 2; 1; -3; -3; 1; 2; 0; 2; 1; -3; -3; 1]; Some [-1; -2; 1; 1; -2; -1]])) /\
  (map (demo_data 0) (upto 30), map (demo_data 1) (upto 6)) =
    ([-3; 1; 2; 0; 2; 1; -3; -3; 1; 2; 0; 2; 1; -3; -3; 1; 2; 0; 2; 1; -3; -3; 1; 2; 0; 2; 1; -3; -3; 1], [-1; -2; 1; 1; -2; -1]).
Proof. split; [| split]; vm_compute; reflexivity. Qed.

Print Assumptions c58_tile.
