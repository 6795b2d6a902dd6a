(** The code-blocks of a component and what decoding them leaves in its plane. *)

From Coq Require Import ZArith List Bool Arith Lia ZifyNat.
From Verif Require Import I32 Ints Mem MathModel MathProps DwtModel DwtProps DwtTile SampleModel SparseModel WindowModel WindowSpec WindowAxis WindowProofs WindowTile WindowProps.
From Verif Require Import MathModel GeomModel GeomProofs GeomCover GeomProps PiModel PiSpec T2PacketModel T2PacketSkip T1Model T1Props CblkModel PacketsModel TileModel TileGeom TileProofs TileProps AreaModel AreaPackets AreaGeom.
Import ListNotations.
Local Open Scope Z_scope.
Local Notation u32 := Ints.u32.
Local Notation rect := GeomModel.rect.
Local Notation within := GeomProofs.within.
Local Notation pl := PacketsModel.place.
Ltac Zify.zify_post_hook ::= idtac.

(** ** Lists of blocks *)

Lemma blocks_in : forall psize size T S c comp (f : Z -> list band -> list job) ls,
  0 <= c < Z.of_nat (length (t_comps T)) ->
  all_some (map (fun r => match res_bands psize size (par T c) (S c) comp r with Some bs => Some (f r bs) | None => None end) (upto (nres (par T c)))) = Some ls ->
  forall j, In j (concat ls) <-> exists r bs, resolution T c r /\ res_bands psize size (par T c) (S c) comp r = Some bs /\ In j (f r bs).
Proof.
  intros psize size T S c comp f ls Hc EL j. apply all_some_map in EL. rewrite in_concat. split.
  - intros (l & Il & I). apply In_nth_error in Il. destruct Il as [m Em].
    destruct (nth_error (upto (nres (par T c))) m) as [r0 |] eqn:Er. 2:{ apply nth_error_None in Er. rewrite (forall2_len _ _ _ EL) in Er. apply nth_error_None in Er. congruence. }
    pose proof (forall2_nth _ _ _ EL m _ _ Er Em) as X. cbv beta in X. destruct (res_bands psize size (par T c) (S c) comp r0) as [bs |] eqn:Eb; [| discriminate]. apply some_inj in X. subst l.
    exists r0, bs. split; [| split; [exact Eb | exact I]]. apply nth_error_In in Er. unfold upto in Er. apply in_map_iff in Er. destruct Er as (n & <- & Er). apply in_seq in Er. split; [exact Hc | lia].
  - intros (r & bs & Hr & Eb & I).
    assert (Er : nth_error (upto (nres (par T c))) (Z.to_nat r) = Some r). { destruct Hr as [_ Hr]. rewrite upto_nth by lia. f_equal. lia. }
    destruct (nth_error ls (Z.to_nat r)) as [l |] eqn:El. 2:{ apply nth_error_None in El. rewrite <- (forall2_len _ _ _ EL) in El. apply nth_error_None in El. congruence. }
    exists l. split; [eapply nth_error_In; exact El |]. pose proof (forall2_nth _ _ _ EL _ _ _ Er El) as X. cbv beta in X. rewrite Eb in X. apply some_inj in X. subst l. exact I.
Qed.

(** Where a block of a resolution comes from. *)
Definition comes (r c : Z) (bs : list band) (ds : pl -> list dband) (b : band) (blk : rect) (e : dblk) (i k : nat) (q : precinct) : Prop :=
  exists d0 j, nth_error bs i = Some b /\ nth_error (b_precs b) k = Some q /\ nth_error (ds (r, c, Z.of_nat k)) i = Some d0 /\ nth_error (cblks q) j = Some blk /\ nth_error (db_blocks d0) j = Some e.

Lemma combine_in : forall {A B} (l : list A) (m : list B) a b, In (a, b) (combine l m) <-> exists j, nth_error l j = Some a /\ nth_error m j = Some b.
Proof.
  intros A B l m a b. split.
  - intros I. apply In_nth_error in I. destruct I as [j I]. rewrite combine_nth_error in I. destruct (nth_error l j) as [a' |] eqn:E1; [| discriminate]. destruct (nth_error m j) as [b' |] eqn:E2; [| discriminate]. injection I as -> ->. eauto.
  - intros (j & E1 & E2). apply (nth_error_In _ j). rewrite combine_nth_error, E1, E2. reflexivity.
Qed.

Lemma res_blocks_in : forall r c bs ds r' b blk e, In (r', b, blk, e) (res_blocks r c bs ds) <-> r' = r /\ exists i k q, comes r c bs ds b blk e i k q.
Proof.
  intros r c bs ds r' b blk e. unfold res_blocks, comes. rewrite in_flat_map. split.
  - intros ([i b'] & Ib & I). apply numbered_in in Ib. apply in_flat_map in I. destruct I as ([k q] & Iq & I). apply numbered_in in Iq.
    destruct (nth_error (ds (r, c, Z.of_nat k)) i) as [d0 |] eqn:Ed; [| destruct I]. apply in_map_iff in I. destruct I as ([blk' e'] & X & I). cbn [fst snd] in X. injection X as <- <- <- <-.
    apply combine_in in I. destruct I as (j & E1 & E2). split; [reflexivity |]. exists i, k, q, d0, j. auto.
  - intros (-> & i & k & q & d0 & j & Ei & Ek & Ed & Ej & Ee). exists (i, b). split; [apply numbered_in; exact Ei |]. apply in_flat_map. exists (k, q). split; [apply numbered_in; exact Ek |]. rewrite Ed.
    apply in_map_iff. exists (blk, e). split; [reflexivity |]. apply combine_in. eauto.
Qed.

Lemma area_blocks_in : forall whole n r c w bs ds r' b blk e, In (r', b, blk, e) (area_blocks whole n r c w bs ds) <->
  r' = r /\ interest n r (orient r (b_no b)) w blk = true /\ (whole || negb ((block_w blk =? 0) || (block_h blk =? 0)) = true) /\
  exists i k q, comes r c bs ds b blk e i k q /\ interest n r (orient r (b_no b)) w (prect q) = true.
Proof.
  intros whole n r c w bs ds r' b blk e. unfold area_blocks, comes. rewrite in_flat_map. split.
  - intros ([i b'] & Ib & I). apply numbered_in in Ib. apply in_flat_map in I. destruct I as ([k q] & Iq & I). apply numbered_in in Iq.
    destruct (interest n r (orient r (b_no b')) w (prect q)) eqn:EI; [| destruct I].
    destruct (nth_error (ds (r, c, Z.of_nat k)) i) as [d0 |] eqn:Ed; [| destruct I]. apply filter_In in I. destruct I as [I F]. apply in_map_iff in I. destruct I as ([blk' e'] & X & I). cbn [fst snd] in X. injection X as <- <- <- <-.
    apply combine_in in I. destruct I as (j & E1 & E2). apply andb_true_iff in F. destruct F as [F1 F2]. split; [reflexivity |]. split; [exact F1 |]. split; [exact F2 |]. exists i, k, q. split; [exists d0, j; auto | exact EI].
  - intros (-> & F1 & F2 & i & k & q & (d0 & j & Ei & Ek & Ed & Ej & Ee) & EI). exists (i, b). split; [apply numbered_in; exact Ei |]. apply in_flat_map. exists (k, q). split; [apply numbered_in; exact Ek |]. rewrite EI, Ed.
    apply filter_In. split; [| rewrite F1, F2; reflexivity]. apply in_map_iff. exists (blk, e). split; [reflexivity |]. apply combine_in. eauto.
Qed.

(** ** One band per number *)

Lemma band_numbers_nodup : forall r, NoDup (band_numbers r).
Proof. intros r. unfold band_numbers. destruct (r =? 0); repeat constructor; cbn [In]; lia. Qed.

Lemma bands_index : forall psize size p s comp r bs i i' b b', res_bands psize size p s comp r = Some bs -> nth_error bs i = Some b -> nth_error bs i' = Some b' -> b_no b = b_no b' -> i = i' /\ b = b'.
Proof.
  intros psize size p s comp r bs i i' b b' E Hi Hi' Hb. unfold res_bands in E. apply all_some_map in E. set (l := filter _ _) in E.
  assert (ND : NoDup l) by (apply NoDup_filter, band_numbers_nodup).
  assert (G : forall k z, nth_error bs k = Some z -> nth_error l k = Some (b_no z)).
  { intros k z Hk. destruct (nth_error l k) as [m |] eqn:El. 2:{ apply nth_error_None in El. rewrite (forall2_len _ _ _ E) in El. apply nth_error_None in El. congruence. }
    pose proof (forall2_nth _ _ _ E k _ _ El Hk) as X. cbv beta in X. destruct (band_precincts _ _ _ _ _ _ m); [| discriminate]. apply some_inj in X. subst z. reflexivity. }
  pose proof (G i b Hi) as G1. pose proof (G i' b' Hi') as G2. rewrite <- Hb in G2.
  assert (i = i') as <-. { rewrite NoDup_nth_error in ND. apply ND; [apply nth_error_Some; congruence | congruence]. }
  split; [reflexivity | congruence].
Qed.

Lemma bands_has : forall psize size p s comp r bs b0, res_bands psize size p s comp r = Some bs -> In b0 (band_numbers r) -> is_band_empty (band_rect comp (nres p) r b0) = false ->
  exists i b, nth_error bs i = Some b /\ b_no b = b0.
Proof.
  intros psize size p s comp r bs b0 E Hb Ne. unfold res_bands in E. apply all_some_map in E. set (fl := filter _ _) in E.
  assert (If : In b0 fl) by (apply filter_In; split; [exact Hb | rewrite Ne; reflexivity]). apply In_nth_error in If. destruct If as [i Ei].
  destruct (nth_error bs i) as [b |] eqn:Eb3. 2:{ apply nth_error_None in Eb3. rewrite <- (forall2_len _ _ _ E) in Eb3. apply nth_error_None in Eb3. congruence. }
  pose proof (forall2_nth _ _ _ E i _ _ Ei Eb3) as X. cbv beta in X. destruct (band_precincts _ _ _ _ _ _ b0) as [ps |]; [| discriminate]. apply some_inj in X. exists i, b. split; [exact Eb3 | rewrite <- X; reflexivity].
Qed.

(** ** What decoding leaves in the plane *)

Section Shown.
  Context (psize size : Z) (T : tile) (S : Z -> style) (c : Z) (comp : rect) (ds : pl -> list dband).
  Hypothesis (HW : wf T) (HS : sizes_ok T S) (HU : sets_up psize size T S) (Hc : 0 <= c < Z.of_nat (length (t_comps T))) (Ec : tile_comp T c = Some comp).
  Let n := nres (par T c).

  Definition is_job (j : job) : Prop :=
    let '(r, b, blk, e) := j in exists bs i k q, resolution T c r /\ res_bands psize size (par T c) (S c) comp r = Some bs /\ comes r c bs ds b blk e i k q.

  Lemma job_band : forall r b blk e, is_job (r, b, blk, e) -> resolution T c r /\ band_ok psize size T S c r comp b /\ exists k j, block_at (b_precs b) k j blk.
  Proof.
    intros r b blk e (bs & i & k & q & Hr & Eb & d0 & j & Ei & Ek & Ed & Ej & Ee). split; [exact Hr |].
    pose proof (bands_ok psize size T S c r comp bs HW HS Hr Ec (proj1 HU) (proj1 (proj2 HU)) Eb) as BO. rewrite Forall_forall in BO. split; [apply BO, (nth_error_In _ _ Ei) |]. exists k, j, q. auto.
  Qed.

  Lemma comp_extents : extent (fst comp) /\ extent (snd comp) /\ 1 <= n <= 33.
  Proof.
    destruct (tile_comp_some T c HW Hc) as (comp' & E & (_ & _ & X) & (_ & _ & Y)). assert (comp' = comp) as -> by congruence. split; [exact X |]. split; [exact Y |].
    destruct HW as (_ & _ & _ & _ & _ & _ & F & _). rewrite Forall_forall in F. destruct (F (par T c) ltac:(apply nth_In; lia)) as (_ & _ & N & _). exact N.
  Qed.

  (** The plane address of coefficient [(u, v)] of a band, and back. *)
  Lemma home_split : forall r b u v, 0 <= r < n -> In b (band_numbers r) -> inside (band_rect comp n r b) u v ->
    0 <= u - fst (fst (band_rect comp n r b)) + right_of comp n r b < width (fst comp) /\
    0 <= v - fst (snd (band_rect comp n r b)) + below comp n r b < width (snd comp) /\
    home comp n r b u v mod width (fst comp) = u - fst (fst (band_rect comp n r b)) + right_of comp n r b /\
    home comp n r b u v / width (fst comp) = v - fst (snd (band_rect comp n r b)) + below comp n r b.
  Proof.
    intros r b u v Hr Hb [Iu Iv]. destruct comp_extents as (X & Y & N). pose proof (band_inside comp n r b X Y N Hr Hb) as BI. cbn zeta in BI.
    pose proof (res_grow comp n X Y N r Hr) as RG. unfold GeomProofs.within in Iu, Iv. unfold home.
    set (U := u - fst (fst (band_rect comp n r b)) + right_of comp n r b) in *. set (V := v - fst (snd (band_rect comp n r b)) + below comp n r b) in *.
    assert (HU' : 0 <= U < width (fst comp)) by (subst U; unfold width in *; lia). assert (HV' : 0 <= V < width (snd comp)) by (subst V; unfold width in *; lia).
    split; [exact HU' |]. split; [exact HV' |]. rewrite Z.add_comm. split; [rewrite Z.mod_add by lia; apply Z.mod_small; lia | rewrite Z.div_add by lia; rewrite Z.div_small; lia].
  Qed.

  Lemma home_inj : forall r b u v r' b' u' v', 0 <= r < n -> In b (band_numbers r) -> inside (band_rect comp n r b) u v ->
    0 <= r' < n -> In b' (band_numbers r') -> inside (band_rect comp n r' b') u' v' -> home comp n r b u v = home comp n r' b' u' v' -> r = r' /\ b = b' /\ u = u' /\ v = v'.
  Proof.
    intros r b u v r' b' u' v' Hr Hb I Hr' Hb' I' E. destruct comp_extents as (X & Y & N).
    destruct (home_split r b u v Hr Hb I) as (P1 & P2 & P3 & P4). destruct (home_split r' b' u' v' Hr' Hb' I') as (Q1 & Q2 & Q3 & Q4).
    assert (EX : u - fst (fst (band_rect comp n r b)) + right_of comp n r b = u' - fst (fst (band_rect comp n r' b')) + right_of comp n r' b') by congruence.
    assert (EY : v - fst (snd (band_rect comp n r b)) + below comp n r b = v' - fst (snd (band_rect comp n r' b')) + below comp n r' b') by congruence.
    clear P3 P4 Q3 Q4 E.
    destruct (ori_bits r b Hb) as [B O]. destruct (ori_bits r' b' Hb') as [B' O'].
    assert (PL : forall r b u v, 0 <= r < n -> In b (band_numbers r) -> u - fst (fst (band_rect comp n r b)) + right_of comp n r b = WindowSpec.place (fst comp) n r (ori_x r b) u /\
      v - fst (snd (band_rect comp n r b)) + below comp n r b = WindowSpec.place (snd comp) n r (ori_y r b) v).
    { clear - X Y N. intros r b u v Hr Hb. exact (home_axes comp n r b u v X Y N Hr Hb). }
    destruct (PL r b u v Hr Hb) as [A1 A2]. destruct (PL r' b' u' v' Hr' Hb') as [A1' A2']. rewrite A1, A1' in EX. rewrite A2, A2' in EY.
    rewrite (band_rect_sb comp n r b X Y N Hr Hb) in I. rewrite (band_rect_sb comp n r' b' X Y N Hr' Hb') in I'.
    destruct (place_inj comp n ltac:(destruct X; lia) ltac:(destruct Y; lia) r (ori_x r b) (ori_y r b) u v r' (ori_x r' b') (ori_y r' b') u' v' Hr Hr' B B' I I' EX EY) as (<- & Eo & Ep & -> & ->).
    split; [reflexivity |]. split; [| auto]. rewrite Eo, Ep in O. assert (EO : orient r b = orient r b') by lia. clear - EO Hb Hb'. unfold orient, band_numbers in *. destruct (r =? 0); cbn [In] in *; lia.
  Qed.

  Lemma job_unique : forall r b blk e r' b' blk' e' u v u' v', is_job (r, b, blk, e) -> is_job (r', b', blk', e') -> inside blk u v -> inside blk' u' v' ->
    home comp n r (b_no b) u v = home comp n r' (b_no b') u' v' -> (r, b, blk, e) = (r', b', blk', e') /\ u = u' /\ v = v'.
  Proof.
    intros r b blk e r' b' blk' e' u v u' v' J J' I I' E. destruct (job_band _ _ _ _ J) as (Hr & B & _). destruct (job_band _ _ _ _ J') as (Hr' & B' & _).
    destruct J as (bs & i & k & q & _ & Eb & d0 & j & Ei & Ek & Ed & Ej & Ee). destruct J' as (bs' & i' & k' & q' & _ & Eb' & d0' & j' & Ei' & Ek' & Ed' & Ej' & Ee').
    destruct (c38_partition _ _ _ _ _ _ _ _ (bo_set _ _ _ _ _ _ _ _ B) (bo_precs _ _ _ _ _ _ _ _ B)) as (_ & C2 & C3).
    destruct (c38_partition _ _ _ _ _ _ _ _ (bo_set _ _ _ _ _ _ _ _ B') (bo_precs _ _ _ _ _ _ _ _ B')) as (_ & C2' & _).
    assert (At : block_at (b_precs b) k j blk) by (exists q; auto). assert (At' : block_at (b_precs b') k' j' blk') by (exists q'; auto).
    destruct (home_inj r (b_no b) u v r' (b_no b') u' v' (proj2 Hr) (bo_in _ _ _ _ _ _ _ _ B) (C2 _ _ _ _ _ At I) (proj2 Hr') (bo_in _ _ _ _ _ _ _ _ B') (C2' _ _ _ _ _ At' I') E) as (<- & Nb & <- & <-).
    assert (bs' = bs) as -> by congruence. destruct (bands_index _ _ _ _ _ _ _ _ _ _ _ Eb Ei Ei' Nb) as [<- <-].
    destruct (C3 _ _ _ _ _ _ _ _ At At' I I') as [<- <-]. assert (q' = q) as -> by congruence. assert (d0' = d0) as -> by congruence. split; [| auto]. congruence.
  Qed.

  Lemma show_blocks_some : forall l d m, show_blocks (S c) comp n l d = Some m -> forall r b blk e, In (r, b, blk, e) l -> decode_block (block_w blk) (block_h blk) (orient r (b_no b)) (s_roi (S c)) (s_sty (S c)) e <> None.
  Proof.
    induction l as [| [[[r0 b0] blk0] e0] l IH]; intros d m E r b blk e I; [destruct I |]. cbn [show_blocks] in E. unfold show_block in E at 1.
    destruct (decode_block (block_w blk0) (block_h blk0) (orient r0 (b_no b0)) (s_roi (S c)) (s_sty (S c)) e0) as [v |] eqn:D; [| discriminate E].
    destruct I as [X | I]; [injection X as <- <- <- <-; congruence |]. destruct (corner comp n r0 b0 blk0) as [x y]. exact (IH _ _ E r b blk e I).
  Qed.

  (** Every block's samples are where they belong. *)
  Lemma shown_at : forall l d m, (forall j, In j l -> is_job j) -> show_blocks (S c) comp n l d = Some m ->
    forall r b blk e v, In (r, b, blk, e) l -> decode_block (block_w blk) (block_h blk) (orient r (b_no b)) (s_roi (S c)) (s_sty (S c)) e = Some v ->
    forall x y, inside blk x y -> m (home comp n r (b_no b) x y) = output (s_roi (S c)) (v ((y - fst (snd blk)) * width (fst blk) + (x - fst (fst blk)))).
  Proof.
    intros l d m HJ E.
    set (cx := fun (j : job) a => let '(r, b, _, _) := j in a mod width (fst comp) + fst (fst (band_rect comp n r (b_no b))) - right_of comp n r (b_no b)).
    set (cy := fun (j : job) a => let '(r, b, _, _) := j in a / width (fst comp) + fst (snd (band_rect comp n r (b_no b))) - below comp n r (b_no b)).
    set (hit := fun a (j : job) => let '(r, b, blk, _) := j in
      (fst (fst blk) <=? cx j a) && (cx j a <? snd (fst blk)) && (fst (snd blk) <=? cy j a) && (cy j a <? snd (snd blk)) && (home comp n r (b_no b) (cx j a) (cy j a) =? a)).
    set (z := fun a => match find (hit a) l with
      | Some j => let '(r, b, blk, e) := j in
          match decode_block (block_w blk) (block_h blk) (orient r (b_no b)) (s_roi (S c)) (s_sty (S c)) e with
          | Some v => output (s_roi (S c)) (v ((cy j a - fst (snd blk)) * width (fst blk) + (cx j a - fst (fst blk))))
          | None => 0 end
      | None => 0 end).
    assert (Z1 : forall r b blk e v, In (r, b, blk, e) l -> decode_block (block_w blk) (block_h blk) (orient r (b_no b)) (s_roi (S c)) (s_sty (S c)) e = Some v ->
      forall x y, inside blk x y -> z (home comp n r (b_no b) x y) = output (s_roi (S c)) (v ((y - fst (snd blk)) * width (fst blk) + (x - fst (fst blk))))).
    { intros r b blk e v I D x y Hin. pose proof (HJ _ I) as J. destruct (job_band _ _ _ _ J) as (Hr & B & k & j & At).
      destruct (c38_partition _ _ _ _ _ _ _ _ (bo_set _ _ _ _ _ _ _ _ B) (bo_precs _ _ _ _ _ _ _ _ B)) as (_ & C2 & _).
      destruct (home_split r (b_no b) x y (proj2 Hr) (bo_in _ _ _ _ _ _ _ _ B) (C2 _ _ _ _ _ At Hin)) as (_ & _ & P3 & P4).
      set (a := home comp n r (b_no b) x y) in *.
      assert (CX : cx (r, b, blk, e) a = x) by (unfold cx; rewrite P3; lia). assert (CY : cy (r, b, blk, e) a = y) by (unfold cy; rewrite P4; lia).
      assert (HH : hit a (r, b, blk, e) = true).
      { unfold hit. rewrite CX, CY. fold a. rewrite Z.eqb_refl. destruct Hin as [H1 H2]. unfold GeomProofs.within in H1, H2. rewrite !andb_true_iff, !Z.leb_le, !Z.ltb_lt. repeat split; lia. }
      unfold z. destruct (find (hit a) l) as [[[[r' b'] blk'] e'] |] eqn:F.
      - apply find_some in F. destruct F as [I' H']. pose proof H' as H2. unfold hit in H2. rewrite !andb_true_iff, !Z.leb_le, !Z.ltb_lt, Z.eqb_eq in H2. destruct H2 as ((((A1 & A2) & A3) & A4) & A5).
        assert (In' : inside blk' (cx (r', b', blk', e') a) (cy (r', b', blk', e') a)) by (unfold inside, GeomProofs.within; lia).
        destruct (job_unique r' b' blk' e' r b blk e _ _ x y (HJ _ I') J In' Hin A5) as (X & U & V). rewrite U, V. injection X as -> -> -> ->. rewrite D. reflexivity.
      - pose proof (find_none _ _ F _ I) as K. cbv beta in K. congruence. }
    assert (R : Forall (right_block psize size T S c comp z) l).
    { apply Forall_forall. intros [[[r b] blk] e] I. pose proof (HJ _ I) as J. destruct (job_band _ _ _ _ J) as (Hr & B & k & j & At). split; [exact Hr |]. split; [exact B |]. split; [exists k, j; exact At |].
      pose proof (show_blocks_some l d m E r b blk e I) as DN. destruct (decode_block (block_w blk) (block_h blk) (orient r (b_no b)) (s_roi (S c)) (s_sty (S c)) e) as [v |] eqn:D; [| contradiction].
      exists v. split; [reflexivity |]. destruct (HS c Hc) as (_ & _ & _ & _ & _ & S6).
      destruct (block_place _ _ _ _ _ _ _ _ _ _ _ (bo_set _ _ _ _ _ _ _ _ B) (bo_in _ _ _ _ _ _ _ _ B) (bo_precs _ _ _ _ _ _ _ _ B) (bo_some _ _ _ _ _ _ _ _ B) At) as (W & H & _). rewrite W, H in *.
      intros x y Hx Hy. rewrite (proj1 (take_is psize size T S c r comp b k j blk z x y B At (S6 comp Ec) Hx Hy)).
      assert (Hin : inside blk (fst (fst blk) + x) (fst (snd blk) + y)) by (unfold inside, GeomProofs.within, width in *; lia).
      pose proof (Z1 r b blk e v I) as Q. rewrite W, H in Q. specialize (Q D _ _ Hin). fold n. rewrite Q. do 2 f_equal. lia. }
    destruct (show_blocks_spec psize size T S c comp z HS Ec l d R) as (d' & E' & _ & Q). fold n in E', Q. assert (d' = m) as -> by congruence.
    intros r b blk e v I D x y Hin. rewrite (Q r b blk e x y I Hin). exact (Z1 r b blk e v I D x y Hin).
  Qed.
End Shown.
