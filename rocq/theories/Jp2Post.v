(** Palettes and channel definitions applied to the decoded components. *)

From Coq Require Import ZArith List Bool Lia Permutation.
From Verif Require Import Ints CioModel CioProps HdrBytes Jp2Model Jp2Read Jp2Safe.
From Verif Require HdrModel Jp2Spec.
Import ListNotations.
Local Open Scope Z_scope.

(** * Palettes *)

Lemma in_numbered : forall A (l : list A) i x, In (i, x) (numbered l) <-> nth_error l i = Some x.
Proof.
  intros A l i x. unfold numbered.
  assert (Q : forall l k, In (i, x) (combine (seq k (length l)) l) <-> (k <= i)%nat /\ nth_error l (i - k) = Some x).
  { clear l. induction l as [| y l IH]; intros k; cbn [length seq combine In].
    - destruct (i - k)%nat; cbn; intuition discriminate.
    - rewrite IH. split.
      + intros [E | [H1 H2]].
        * assert (k = i /\ y = x) as [-> ->] by (split; congruence). rewrite Nat.sub_diag. split; [lia | reflexivity].
        * split; [lia |]. replace (i - k)%nat with (Datatypes.S (i - Datatypes.S k)) by lia. exact H2.
      + intros [H1 H2]. destruct (Nat.eq_dec k i) as [-> | Hn].
        * rewrite Nat.sub_diag in H2. left. cbn in H2. congruence.
        * right. split; [lia |]. replace (i - k)%nat with (Datatypes.S (i - Datatypes.S k)) in H2 by lia. exact H2. }
  rewrite Q, Nat.sub_0_r. intuition lia.
Qed.

(** What [check_pclr] ensures. *)
Lemma check_maps_sane : forall n l st st', fold_left (check_map n) l st = st' -> fst st' = true ->
  fst st = true /\ forall i m, In (i, m) l -> m_pcol m < n /\ (m_mtyp m = 0 /\ m_pcol m = 0 \/ m_mtyp m = 1 /\ m_pcol m = Z.of_nat i).
Proof.
  intros n. induction l as [| [i m] l IH]; intros [sane used] st' E H; cbn [fold_left] in E.
  - subst st'. split; [exact H | intros ? ? []].
  - destruct (IH _ _ E H) as [H1 H2]. unfold check_map in H1.
    destruct (Z.eqb_spec (m_mtyp m) 0) as [M0 | M0]; destruct (Z.eqb_spec (m_mtyp m) 1) as [M1 | M1]; cbn [negb andb] in H1; try lia.
    + rewrite andb_false_r in H1. destruct (Z.leb_spec n (m_pcol m)); [discriminate |]. destruct (Z.eqb_spec (m_pcol m) 0); [| discriminate]. cbn [negb fst] in H1.
      split; [exact H1 |]. intros i' m' [Q | Q]; [| apply H2; exact Q]. assert (i' = i /\ m' = m) as [-> ->] by (split; congruence). split; [assumption | left; split; assumption].
    + rewrite andb_true_r in H1. destruct (Z.leb_spec n (m_pcol m)); [discriminate |]. destruct (mem_z (m_pcol m) used); [discriminate |].
      destruct (Z.eqb_spec (m_pcol m) (Z.of_nat i)); [| discriminate]. cbn [negb fst] in H1.
      split; [exact H1 |]. intros i' m' [Q | Q]; [| apply H2; exact Q]. assert (i' = i /\ m' = m) as [-> ->] by (split; congruence). split; [assumption | right; split; assumption].
    + discriminate H1.
Qed.

(** A mapping that is accepted. *)
Definition usable (numcomps n : Z) (i : nat) (m : mapping) : Prop :=
  m_cmp m < numcomps /\ m_pcol m < n /\ (m_mtyp m = 0 /\ m_pcol m = 0 \/ m_mtyp m = 1 /\ m_pcol m = Z.of_nat i).

Lemma numbered_length : forall A (l : list A), length (numbered l) = length l.
Proof. intros. unfold numbered. rewrite combine_length, seq_length. lia. Qed.
Lemma nth_numbered : forall A (l : list A) i x, nth_error l i = Some x -> nth_error (numbered l) i = Some (i, x).
Proof.
  intros A l i x E. unfold numbered.
  assert (Q : forall l k i, nth_error l i = Some x -> nth_error (combine (seq k (length l)) l) i = Some ((k + i)%nat, x)).
  { clear. induction l as [| y l IH]; intros k i E; [destruct i; discriminate |]. cbn [length seq combine]. destruct i as [| i]; cbn [nth_error] in *.
    - assert (y = x) as -> by congruence. rewrite Nat.add_0_r. reflexivity.
    - rewrite IH by exact E. f_equal. f_equal. lia. }
  rewrite (Q l 0%nat i E). reflexivity.
Qed.

Theorem check_pclr_sound : forall numcomps p p', palette_ok p -> check_pclr numcomps p = Some p' ->
  palette_ok p' /\ (p_cmap p' = [] <-> p_cmap p = []) /\ p_entries p' = p_entries p /\ p_nr_entries p' = p_nr_entries p /\ p_nr_channels p' = p_nr_channels p /\ p_channel p' = p_channel p /\
  forall i m, nth_error (p_cmap p') i = Some m -> usable numcomps (p_nr_channels p) i m.
Proof.
  intros numcomps p p' G E. unfold check_pclr in E. destruct (k_cmap _ G) as [K | K].
  { rewrite K in E. assert (Q : zlen (A := mapping) [] =? p_nr_channels p = false) by (apply Z.eqb_neq; pose proof (k_channels _ G); unfold zlen; cbn [length]; lia).
    rewrite Q in E. cbn [negb] in E. assert (p' = p) as -> by congruence. split; [exact G |]. split; [tauto |]. do 4 (split; [reflexivity |]).
    intros i m Hi. rewrite K in Hi. destruct i; discriminate Hi. }
  rewrite K, Z.eqb_refl in E. cbn [negb] in E. cbv zeta in E.
  set (inside := forallb _ (p_cmap p)) in E. destruct (fold_left (check_map (p_nr_channels p)) (numbered (p_cmap p)) (inside, [])) as [sane used] eqn:Ef.
  set (covered := forallb _ (numbered (p_cmap p))) in E.
  assert (Q : sane = true -> forall i m, nth_error (p_cmap p) i = Some m -> usable numcomps (p_nr_channels p) i m).
  { intros Hs i m Hi. destruct (check_maps_sane _ _ _ _ Ef Hs) as [Hin Hm]. cbn [fst] in Hin. unfold inside in Hin. rewrite forallb_forall in Hin.
    destruct (Hm i m) as [H1 H2]; [apply in_numbered; exact Hi |]. specialize (Hin m (nth_error_In _ _ Hi)). apply negb_true_iff, Z.leb_gt in Hin.
    split; [exact Hin |]. split; assumption. }
  destruct sane; [| cbn [andb] in E; discriminate]. specialize (Q eq_refl). cbn [andb] in E. destruct covered; [| cbn [andb] in E; discriminate]. cbn [andb] in E.
  pose proof (k_channels _ G) as Hc.
  destruct ((numcomps =? 1) && _).
  - assert (p' = with_cmap p (map (fun im : nat * mapping => mkMap (m_cmp (snd im)) 1 (u8 (Z.of_nat (fst im)))) (numbered (p_cmap p)))) as -> by congruence. clear E.
    set (l := map _ (numbered (p_cmap p))).
    assert (Hl : zlen l = p_nr_channels p) by (unfold l, zlen; rewrite map_length, numbered_length; exact K).
    assert (U : forall i m, nth_error l i = Some m -> usable numcomps (p_nr_channels p) i m).
    { intros i m Hi. unfold l in Hi. rewrite nth_error_map in Hi. destruct (nth_error (numbered (p_cmap p)) i) as [[i' m'] |] eqn:E'; [| discriminate].
      cbn [option_map fst snd] in Hi. assert (In (i', m') (numbered (p_cmap p))) as Hin by (apply nth_error_In in E'; exact E').
      apply in_numbered in Hin. assert (Hi' := nth_numbered _ _ _ _ Hin).
      assert (i' = i). { destruct (nth_error (p_cmap p) i) as [y |] eqn:Ey.
        - rewrite (nth_numbered _ _ _ _ Ey) in E'. congruence.
        - apply nth_error_None in Ey. assert (nth_error (numbered (p_cmap p)) i = None) by (apply nth_error_None; rewrite numbered_length; exact Ey). congruence. }
      subst i'. specialize (Q i m' Hin). assert (Hr : 0 <= Z.of_nat i < p_nr_channels p).
      { assert (i < length (p_cmap p))%nat by (apply nth_error_Some; congruence). unfold zlen in K. lia. }
      assert (m = mkMap (m_cmp m') 1 (Z.of_nat i)) as ->. { unfold u8 in Hi. rewrite Z.mod_small in Hi by lia. congruence. }
      destruct Q as (Q1 & _). split; [exact Q1 |]. cbn [m_pcol m_mtyp]. split; [lia |]. right. split; reflexivity. }
    split; [| split; [| do 4 (split; [reflexivity |]); exact U]].
    + constructor; cbn [with_cmap p_nr_entries p_nr_channels p_channel p_entries p_cmap]; try apply G.
      * right. exact Hl.
      * apply Forall_forall. intros m Hm. destruct (In_nth_error _ _ Hm) as [i Hi]. destruct (U _ _ Hi) as (U1 & U2 & U3).
        unfold l in Hi. rewrite nth_error_map in Hi. destruct (nth_error (numbered (p_cmap p)) i) as [[i' m'] |] eqn:E'; [| discriminate].
        apply nth_error_In in E'. apply in_numbered in E'. apply nth_error_In in E'. pose proof (proj1 (Forall_forall _ _) (k_maps _ G) m' E') as (W1 & _).
        cbn [option_map fst snd] in Hi. assert (m_cmp m = m_cmp m') by (assert (m = mkMap (m_cmp m') 1 (u8 (Z.of_nat i'))) as -> by congruence; reflexivity).
        split; [lia |]. split; [lia |]. lia.
    + cbn [with_cmap p_cmap]. unfold zlen in *. split; intros Z0.
      * rewrite Z0 in Hl. cbn [length] in Hl. lia.
      * rewrite Z0 in K. cbn [length] in K. lia.
  - assert (p' = p) as -> by congruence. split; [exact G |]. split; [tauto |]. do 4 (split; [reflexivity |]). exact Q.
Qed.

(** Lookups stay inside the table. *)
Lemma look_up_ok : forall p pcol k, palette_ok p -> 0 <= pcol < p_nr_channels p -> exists v, look_up p pcol k = Some v.
Proof.
  intros p pcol k G H. unfold look_up. set (k' := if k <? 0 then 0 else if p_nr_entries p - 1 <? k then p_nr_entries p - 1 else k).
  pose proof (k_entries _ G) as He. assert (Hk : 0 <= k' <= p_nr_entries p - 1).
  { unfold k'. destruct (Z.ltb_spec k 0); [lia |]. destruct (Z.ltb_spec (p_nr_entries p - 1) k); lia. }
  assert (Hi : 0 <= k' * p_nr_channels p + pcol < p_nr_entries p * p_nr_channels p) by (clear - Hk H He; nia).
  destruct (Z.ltb_spec (k' * p_nr_channels p + pcol) 0); [lia |].
  pose proof (k_table _ G) as T. unfold zlen in T. destruct (nth_error (p_entries p) (Z.to_nat (k' * p_nr_channels p + pcol))) eqn:E; [eexists; reflexivity |].
  apply nth_error_None in E. lia.
Qed.
Lemma look_ups_ok : forall p pcol l, palette_ok p -> 0 <= pcol < p_nr_channels p -> exists l', look_ups p pcol l = Some l'.
Proof.
  intros p pcol l G H. induction l as [| k l [l' IH]]; cbn [look_ups]; [eexists; reflexivity |].
  destruct (look_up_ok p pcol k G H) as [v ->]. rewrite IH. eexists. reflexivity.
Qed.

(** The components hold blocks that are allocated. *)
Definition allocated (m : heap) (comps : list icomp) : Prop := forall c, In c comps -> ic_data c <> 0 -> exists l, m (ic_data c) = Some l.

Lemma nth_some : forall A (l : list A) i, 0 <= i < zlen l -> exists x, nth_error l (Z.to_nat i) = Some x.
Proof.
  intros A l i H. destruct (nth_error l (Z.to_nat i)) eqn:E; [eexists; reflexivity |]. apply nth_error_None in E. unfold zlen in H. lia.
Qed.

(** Every mapping has a source with samples, and every block stays allocated. *)
Definition source (comps : list icomp) (n : Z) (cm : mapping) : Prop :=
  (exists c, nth_error comps (Z.to_nat (m_cmp cm)) = Some c /\ ic_data c <> 0) /\ (m_mtyp cm <> 0 -> 0 <= m_pcol cm < n).
Lemma map_channels_ok : forall p comps l m, palette_ok p -> allocated m comps -> Forall (fun x => source comps (p_nr_channels p) (fst x)) l ->
  exists m' cs, map_channels comps p m l = Got (m', cs) /\ allocated m' comps /\
    Forall2 (fun x c => exists o, nth_error comps (Z.to_nat (m_cmp (fst x))) = Some o /\ c = mkIcomp (ic_w o) (ic_h o) (fst (snd x)) (snd (snd x)) (ic_alpha o) (ic_data o)) l cs /\
    (forall a, ~ In a (map (fun x => ic_data (comp_at comps (m_cmp (fst x)))) l) -> m' a = m a).
Proof.
  intros p comps. induction l as [| [cm ch] l IH]; intros m G A F.
  - exists m, []. repeat split; [exact A | constructor].
  - inversion F as [| ? ? ((c & Ec & Hc) & Hp) Fl]; subst. cbn [fst] in *. cbn [map_channels].
    destruct (A c (nth_error_In _ _ Ec) Hc) as [src Hsrc]. unfold map_channel. rewrite Ec. cbv zeta. rewrite Hsrc.
    assert (Ecc : comp_at comps (m_cmp cm) = c) by (unfold comp_at; apply nth_error_nth; exact Ec).
    destruct (Z.eqb_spec (m_mtyp cm) 0) as [M | M].
    + cbn [bind]. destruct (IH m G A Fl) as (m' & cs & -> & A' & F2 & Fr). cbn [bind]. eexists m', (_ :: cs). split; [reflexivity |]. split; [exact A' |]. split.
      * constructor; [| exact F2]. exists c. split; [exact Ec | reflexivity].
      * intros a Ha. apply Fr. intros Q. apply Ha. right. exact Q.
    + destruct (look_ups_ok p (m_pcol cm) src G (Hp M)) as [dst ->]. cbn [bind].
      destruct (IH (store m (ic_data c) (Some dst)) G) as (m' & cs & -> & A' & F2 & Fr); [| exact Fl |].
      { intros x Hx Hd. unfold store. destruct (ic_data x =? ic_data c); [eexists; reflexivity | apply A; assumption]. }
      cbn [bind]. eexists m', (_ :: cs). split; [reflexivity |]. split; [exact A' |]. split.
      * constructor; [| exact F2]. exists c. split; [exact Ec | reflexivity].
      * intros a Ha. rewrite Fr by (intros Q; apply Ha; right; exact Q). unfold store. destruct (Z.eqb_spec a (ic_data c)) as [-> |]; [| reflexivity].
        exfalso. apply Ha. left. cbn [fst]. rewrite Ecc. reflexivity.
Qed.

Lemma check_sources_got : forall comps l, check_sources comps l = Got tt ->
  Forall (fun im => (exists c, nth_error comps (Z.to_nat (m_cmp (snd im))) = Some c /\ ic_data c <> 0) /\ (m_mtyp (snd im) <> 0 -> m_pcol (snd im) = Z.of_nat (fst im))) l.
Proof.
  intros comps. induction l as [| [i m] l IH]; intros E; cbn [check_sources] in E; [constructor |].
  destruct (nth_error comps (Z.to_nat (m_cmp m))) as [c |] eqn:Ec; [| discriminate]. destruct (Z.eqb_spec (ic_data c) 0); [discriminate |].
  destruct (negb (m_mtyp m =? 0) && negb (Z.of_nat i =? m_pcol m)) eqn:Em; [discriminate |]. constructor; [| apply IH; exact E]. cbn [fst snd]. split; [exists c; split; assumption |].
  intros M. destruct (Z.eqb_spec (m_mtyp m) 0); [contradiction |]. cbn [negb andb] in Em. apply negb_false_iff, Z.eqb_eq in Em. congruence.
Qed.
Lemma check_sources_out : forall comps l, (forall im, In im l -> 0 <= m_cmp (snd im) < zlen comps) -> check_sources comps l <> Panic.
Proof.
  intros comps. induction l as [| [i m] l IH]; intros F; cbn [check_sources]; [discriminate |].
  destruct (nth_some _ comps (m_cmp m)) as [c ->]; [apply (F (i, m)); left; reflexivity |].
  destruct (ic_data c =? 0); [discriminate |]. destruct (_ && _); [discriminate |]. apply IH. intros im H. apply F. right. exact H.
Qed.

(** Dropping the old components. *)
Lemma drop_spec : forall comps m a, drop_comps m comps a = if existsb (fun c => negb (ic_data c =? 0) && (ic_data c =? a)) comps then None else m a.
Proof.
  unfold drop_comps. induction comps as [| c comps IH]; intros m a; [reflexivity |]. cbn [fold_left existsb]. rewrite IH.
  destruct (Z.eqb_spec (ic_data c) 0) as [E | E]; cbn [negb andb orb]; [reflexivity |].
  unfold store. destruct (Z.eqb_spec a (ic_data c)) as [-> | N].
  - rewrite Z.eqb_refl. cbn [orb]. destruct (existsb _ comps); reflexivity.
  - destruct (Z.eqb_spec (ic_data c) a); [congruence |]. reflexivity.
Qed.

Lemma combine_firstn_all : forall A B (l : list A) (r : list B) n, length l = n -> length r = n -> firstn n (combine l r) = combine l r.
Proof. intros A B l r n H1 H2. apply firstn_all2. rewrite combine_length. lia. Qed.

(** ** The palette applied *)
Theorem apply_pclr_ok : forall m comps p, palette_ok p -> allocated m comps -> zlen (p_cmap p) = p_nr_channels p ->
  (forall cm, In cm (p_cmap p) -> m_cmp cm < zlen comps) ->
  apply_pclr m comps p <> Panic /\
  forall m' cs, apply_pclr m comps p = Got (m', cs) ->
    length cs = Z.to_nat (p_nr_channels p) /\
    (forall i c, nth_error cs i = Some c -> exists cm ch o,
        nth_error (p_cmap p) i = Some cm /\ nth_error (p_channel p) i = Some ch /\ nth_error comps (Z.to_nat (m_cmp cm)) = Some o /\
        c = mkIcomp (ic_w o) (ic_h o) (fst ch) (snd ch) (ic_alpha o) (ic_data o) /\ ic_data o <> 0 /\ m' (ic_data o) = None).
Proof.
  intros m comps p G A L C. unfold apply_pclr.
  assert (N : check_sources comps (numbered (p_cmap p)) <> Panic).
  { apply check_sources_out. intros [i cm] H. apply in_numbered in H. apply nth_error_In in H. cbn [snd].
    pose proof (proj1 (Forall_forall _ _) (k_maps _ G) cm H) as (W1 & _). specialize (C cm H). lia. }
  destruct (check_sources comps (numbered (p_cmap p))) as [[] | |] eqn:Es; [| | congruence]; cbn [bind]; [| split; [discriminate | intros; discriminate]].
  apply check_sources_got in Es. rewrite Forall_forall in Es.
  set (l := combine (p_cmap p) (p_channel p)). pose proof (k_channels _ G) as Hn. pose proof (k_channel _ G) as Hch. unfold zlen in L, Hch.
  rewrite (combine_firstn_all _ _ (p_cmap p) (p_channel p)) by lia. fold l.
  assert (Ll : length l = Z.to_nat (p_nr_channels p)) by (unfold l; rewrite combine_length; lia).
  assert (F : Forall (fun x => source comps (p_nr_channels p) (fst x)) l).
  { apply Forall_forall. intros [cm ch] H. apply in_combine_l in H. cbn [fst]. destruct (In_nth_error _ _ H) as [i Hi].
    destruct (Es (i, cm)) as [E1 E2]; [apply in_numbered; exact Hi |]. cbn [fst snd] in *. split; [exact E1 |]. intros M. rewrite (E2 M).
    assert (i < length (p_cmap p))%nat by (apply nth_error_Some; congruence). lia. }
  destruct (map_channels_ok p comps l m G A F) as (m' & cs & -> & A' & F2 & Fr). cbn [bind]. split; [discriminate |].
  intros m'' cs' E. assert (Lc : length cs = Z.to_nat (p_nr_channels p)) by (rewrite <- Ll; symmetry; clear - F2; induction F2; cbn [length]; congruence).
  rewrite Lc, Nat.sub_diag in E. cbn [repeat] in E. rewrite app_nil_r in E. assert (cs' = cs) as -> by congruence. assert (m'' = drop_comps m' comps) as -> by congruence.
  split; [exact Lc |]. intros i c Hi.
  assert (Q : exists x, nth_error l i = Some x). { destruct (nth_error l i) eqn:Eq; [eexists; reflexivity |]. apply nth_error_None in Eq. assert (i < length cs)%nat by (apply nth_error_Some; congruence). lia. }
  destruct Q as [[cm ch] Hl].
  assert (R : exists o, nth_error comps (Z.to_nat (m_cmp cm)) = Some o /\ c = mkIcomp (ic_w o) (ic_h o) (fst ch) (snd ch) (ic_alpha o) (ic_data o)).
  { clear - F2 Hi Hl. revert i Hi Hl. induction F2 as [| x y l cs Hxy F2 IH]; intros i Hi Hl; [destruct i; discriminate |]. destruct i as [| i]; cbn [nth_error] in *.
    - assert (x = (cm, ch)) as -> by congruence. assert (y = c) as -> by congruence. exact Hxy.
    - apply (IH i); assumption. }
  destruct R as (o & Ho & Ec). exists cm, ch, o.
  assert (Hcm : nth_error (p_cmap p) i = Some cm /\ nth_error (p_channel p) i = Some ch).
  { clear - Hl. unfold l in Hl. revert i Hl. generalize (p_channel p). induction (p_cmap p) as [| a l1 IH]; intros [| b l2] i Hl; try (destruct i; discriminate).
    destruct i as [| i]; cbn [combine nth_error] in *; [split; congruence | apply IH; exact Hl]. }
  destruct Hcm as [Hcm Hch']. destruct (Es (i, cm)) as [(o' & Ho' & Hd) _]; [apply in_numbered; exact Hcm |]. cbn [snd] in Ho'. assert (o' = o) as -> by congruence.
  repeat split; try assumption. rewrite drop_spec.
  assert (X : existsb (fun c => negb (ic_data c =? 0) && (ic_data c =? ic_data o)) comps = true).
  { apply existsb_exists. exists o. split; [exact (nth_error_In _ _ Ho) |]. rewrite Z.eqb_refl. destruct (Z.eqb_spec (ic_data o) 0); [contradiction | reflexivity]. }
  rewrite X. reflexivity.
Qed.

(** ** The samples, before the old components are dropped *)
Fixpoint rows_of (n : nat) (fuel : nat) (l : list Z) : list (list Z) :=
  match fuel with O => [] | Datatypes.S fuel => firstn n l :: rows_of n fuel (skipn n l) end.

Lemma skip_skip : forall A (a b : nat) (l : list A), skipn a (skipn b l) = skipn (a + b) l.
Proof.
  intros A a b. revert a. induction b as [| b IH]; intros a l; [rewrite Nat.add_0_r; reflexivity |].
  rewrite Nat.add_succ_r. destruct l as [| x l]; cbn [skipn]; [apply skipn_nil | apply IH].
Qed.
Lemma rows_nth : forall n e l k, (k < e)%nat -> nth_error (rows_of n e l) k = Some (firstn n (skipn (k * n) l)).
Proof.
  induction e as [| e IH]; intros l k H; [lia |]. destruct k as [| k]; cbn [rows_of nth_error]; [reflexivity |].
  rewrite IH by lia. rewrite skip_skip. replace (k * n + n)%nat with (Datatypes.S k * n)%nat by lia. reflexivity.
Qed.
Lemma rows_len : forall n e l, length (rows_of n e l) = e.
Proof. induction e as [| e IH]; intros; [reflexivity |]. cbn [rows_of length]. rewrite IH. reflexivity. Qed.

Lemma look_up_value : forall p pcol k, palette_ok p -> 0 <= pcol < p_nr_channels p ->
  look_up p pcol k = option_map s32 (Jp2Spec.palette_value (rows_of (Z.to_nat (p_nr_channels p)) (Z.to_nat (p_nr_entries p)) (p_entries p)) (Z.to_nat pcol) k).
Proof.
  intros p pcol k G H. unfold look_up, Jp2Spec.palette_value, Jp2Spec.size. pose proof (k_entries _ G) as He. rewrite rows_len.
  rewrite Z2Nat.id by lia. set (k' := if k <? 0 then 0 else if p_nr_entries p - 1 <? k then p_nr_entries p - 1 else k).
  assert (Hk : Z.max 0 (Z.min k (p_nr_entries p - 1)) = k' /\ 0 <= k' <= p_nr_entries p - 1).
  { unfold k'. destruct (Z.ltb_spec k 0); [lia |]. destruct (Z.ltb_spec (p_nr_entries p - 1) k); lia. }
  destruct Hk as [-> Hk]. rewrite rows_nth by lia.
  assert (Hi : 0 <= k' * p_nr_channels p + pcol) by (clear - Hk H; nia). destruct (Z.ltb_spec (k' * p_nr_channels p + pcol) 0); [lia |].
  f_equal. replace (Z.to_nat (k' * p_nr_channels p + pcol)) with (Z.to_nat k' * Z.to_nat (p_nr_channels p) + Z.to_nat pcol)%nat
    by (rewrite Z2Nat.inj_add, Z2Nat.inj_mul by (clear - Hk H; nia); reflexivity).
  generalize (Z.to_nat k' * Z.to_nat (p_nr_channels p))%nat as s. intros s. assert (Hn : (Z.to_nat pcol < Z.to_nat (p_nr_channels p))%nat) by lia.
  generalize (p_entries p). revert Hn. generalize (Z.to_nat (p_nr_channels p)), (Z.to_nat pcol). clear.
  intros n q Hn l. rewrite (Nat.add_comm s q). revert s. induction l as [| x l IHl]; intros s.
  - rewrite skipn_nil, firstn_nil. destruct (q + s)%nat, q; reflexivity.
  - destruct s as [| s].
    + rewrite Nat.add_0_r. cbn [skipn]. clear IHl. revert q Hn. generalize (x :: l). clear. intros l. revert n.
      induction l as [| y l IHl]; intros n q Hn; [rewrite firstn_nil; destruct q; reflexivity |]. destruct n as [| n]; [lia |].
      destruct q as [| q]; [reflexivity |]. cbn [firstn nth_error]. apply IHl. lia.
    + rewrite Nat.add_succ_r. cbn [skipn nth_error]. apply IHl.
Qed.

Lemma map_channels_values : forall p comps l m m' cs, palette_ok p -> map_channels comps p m l = Got (m', cs) ->
  Forall (fun x => source comps (p_nr_channels p) (fst x)) l ->
  NoDup (map (fun x => ic_data (comp_at comps (m_cmp (fst x)))) l) ->
  (forall x, In x l -> forall src, m (ic_data (comp_at comps (m_cmp (fst x)))) = Some src ->
     exists dst, m' (ic_data (comp_at comps (m_cmp (fst x)))) = Some dst /\
       (m_mtyp (fst x) = 0 -> dst = src) /\ (m_mtyp (fst x) <> 0 -> look_ups p (m_pcol (fst x)) src = Some dst)) /\
  (forall a, ~ In a (map (fun x => ic_data (comp_at comps (m_cmp (fst x)))) l) -> m' a = m a).
Proof.
  intros p comps. induction l as [| [cm ch] l IH]; intros m m' cs G E F N; cbn [map_channels] in E.
  - assert (m' = m) as -> by congruence. split; [intros x [] | reflexivity].
  - inversion F as [| ? ? ((c & Ec & Hc) & Hp) Fl]; subst. cbn [map fst] in N. inversion N as [| ? ? Nn Nl]; subst. cbn [fst] in *.
    assert (Ecc : comp_at comps (m_cmp cm) = c) by (unfold comp_at; apply nth_error_nth; exact Ec). rewrite Ecc in Nn.
    unfold map_channel in E. rewrite Ec in E. cbv zeta in E. destruct (m (ic_data c)) as [src |] eqn:Es; [| discriminate].
    destruct (Z.eqb_spec (m_mtyp cm) 0) as [M | M].
    + cbn [bind] in E. destruct (map_channels comps p m l) as [[m1 cs1] | |] eqn:E1; [| discriminate | discriminate]. cbn [bind] in E. assert (m' = m1) as -> by congruence.
      destruct (IH _ _ _ G E1 Fl Nl) as [V Fr]. split.
      * intros x [<- | Hx] s Hs; [| apply V; assumption]. cbn [fst] in *. rewrite Ecc in *. exists s. rewrite Fr by exact Nn. split; [exact Hs |]. split; [reflexivity | contradiction].
      * intros a Ha. apply Fr. intros Q. apply Ha. right. exact Q.
    + destruct (look_ups p (m_pcol cm) src) as [dst |] eqn:El; [| discriminate]. cbn [bind] in E.
      destruct (map_channels comps p (store m (ic_data c) (Some dst)) l) as [[m1 cs1] | |] eqn:E1; [| discriminate | discriminate]. cbn [bind] in E. assert (m' = m1) as -> by congruence.
      destruct (IH _ _ _ G E1 Fl Nl) as [V Fr]. split.
      * intros x [<- | Hx] s Hs.
        { cbn [fst] in *. rewrite Ecc in *. exists dst. rewrite Fr by exact Nn. unfold store at 1. rewrite Z.eqb_refl. split; [reflexivity |]. split; [contradiction |].
          intros _. assert (s = src) as -> by congruence. exact El. }
        { apply V; [exact Hx |]. unfold store. destruct (Z.eqb_spec (ic_data (comp_at comps (m_cmp (fst x)))) (ic_data c)) as [Q |]; [| exact Hs].
          exfalso. apply Nn. rewrite <- Q. apply (in_map (fun x => ic_data (comp_at comps (m_cmp (fst x))))). exact Hx. }
      * intros a Ha. rewrite Fr by (intros Q; apply Ha; right; exact Q). unfold store. destruct (Z.eqb_spec a (ic_data c)) as [-> |]; [| reflexivity].
        exfalso. apply Ha. left. cbn [fst]. rewrite Ecc. reflexivity.
Qed.

(** * Channel definitions *)

Definition is_colour (d : def) : Prop := d_typ d = 0 /\ d_asoc d <> 0 /\ d_asoc d <> 65535.
Definition same (a b : icomp) : Prop := with_alpha a 0 = with_alpha b 0.
Lemma same_refl : forall a, same a a. Proof. reflexivity. Qed.
Lemma same_alpha : forall a t, same (with_alpha a t) a. Proof. reflexivity. Qed.
Lemma same_trans : forall a b c, same a b -> same b c -> same a c. Proof. unfold same. intros. congruence. Qed.

Lemma set_nth_length : forall A (l : list A) n v, length (set_nth l n v) = length l.
Proof. induction l as [| x l IH]; intros [| n] v; cbn [set_nth length]; rewrite ?IH; reflexivity. Qed.
Lemma set_nth_get : forall A (l : list A) n v k d, nth k (set_nth l n v) d = if (k =? n)%nat && (n <? length l)%nat then v else nth k l d.
Proof.
  induction l as [| x l IH]; intros n v k d; cbn [set_nth].
  - destruct n; cbn [length]; rewrite andb_false_r; reflexivity.
  - destruct n as [| n], k as [| k]; cbn [set_nth nth Nat.eqb andb length]; try reflexivity. rewrite IH. reflexivity.
Qed.
Lemma at_set : forall comps i v k, 0 <= i -> 0 <= k -> comp_at (set_nth comps (Z.to_nat i) v) k = if (k =? i) && (i <? zlen comps) then v else comp_at comps k.
Proof.
  intros comps i v k Hi Hk. unfold comp_at. rewrite set_nth_get. unfold zlen.
  destruct (Nat.eqb_spec (Z.to_nat k) (Z.to_nat i)); destruct (Z.eqb_spec k i); try lia; cbn [andb]; [| reflexivity].
  destruct (Nat.ltb_spec (Z.to_nat i) (length comps)); destruct (Z.ltb_spec i (Z.of_nat (length comps))); try lia; reflexivity.
Qed.

Lemma same_set : forall comps i t k, 0 <= i -> 0 <= k -> same (comp_at (set_nth comps (Z.to_nat i) (with_alpha (comp_at comps i) t)) k) (comp_at comps k).
Proof. intros. rewrite at_set by assumption. destruct (Z.eqb_spec k i) as [-> |]; cbn [andb]; [| reflexivity]. destruct (i <? zlen comps); reflexivity. Qed.

Definition range_ok (n : Z) (d : def) : Prop := 0 <= d_cn d < n /\ 0 <= d_asoc d /\ (is_colour d -> d_asoc d <= n).
Definition colour_asocs (l : list def) : list Z := map d_asoc (filter (fun d => (d_typ d =? 0) && negb (d_asoc d =? 0) && negb (d_asoc d =? 65535)) l).
Lemma colour_in : forall l d, In d l -> is_colour d -> In (d_asoc d) (colour_asocs l).
Proof.
  intros l d H (C1 & C2 & C3). unfold colour_asocs. apply in_map. apply filter_In. split; [exact H |].
  destruct (Z.eqb_spec (d_typ d) 0); [| contradiction]. destruct (Z.eqb_spec (d_asoc d) 0); [contradiction |]. destruct (Z.eqb_spec (d_asoc d) 65535); [contradiction | reflexivity].
Qed.
Lemma colours_swap : forall a b l, colour_asocs (map (swap_def a b) l) = colour_asocs l.
Proof.
  intros a b. unfold colour_asocs. induction l as [| d l IH]; [reflexivity |]. cbn [map filter].
  assert (E : d_typ (swap_def a b d) = d_typ d /\ d_asoc (swap_def a b d) = d_asoc d) by (unfold swap_def; destruct (d_cn d =? a); [split; reflexivity |]; destruct (d_cn d =? b); split; reflexivity).
  destruct E as [E1 E2]. rewrite E1, E2. destruct ((d_typ d =? 0) && _ && _); cbn [map]; rewrite ?E2, IH; reflexivity.
Qed.
Lemma swap_cn : forall a b d, d_cn (swap_def a b d) = if d_cn d =? a then b else if d_cn d =? b then a else d_cn d.
Proof. intros. unfold swap_def. destruct (d_cn d =? a); [reflexivity |]. destruct (d_cn d =? b); reflexivity. Qed.
Lemma swap_rest : forall a b d, d_typ (swap_def a b d) = d_typ d /\ d_asoc (swap_def a b d) = d_asoc d.
Proof. intros. unfold swap_def. destruct (d_cn d =? a); [split; reflexivity |]. destruct (d_cn d =? b); split; reflexivity. Qed.
Lemma nodup_swap : forall a b l, NoDup (map d_cn l) -> NoDup (map d_cn (map (swap_def a b) l)).
Proof.
  intros a b l N. rewrite map_map. assert (E : map (fun d => d_cn (swap_def a b d)) l = map (fun c => if c =? a then b else if c =? b then a else c) (map d_cn l)).
  { rewrite map_map. apply map_ext. intros. apply swap_cn. }
  rewrite E. apply FinFun.Injective_map_NoDup; [| exact N]. intros x y.
  destruct (Z.eqb_spec x a), (Z.eqb_spec y a); destruct (Z.eqb_spec x b), (Z.eqb_spec y b); congruence.
Qed.

Theorem apply_defs_places : forall l comps, Forall (range_ok (zlen comps)) l -> NoDup (map d_cn l) -> NoDup (colour_asocs l) ->
  let r := apply_defs (length l) comps l in
  zlen r = zlen comps /\
  (forall d, In d l -> is_colour d -> same (comp_at r (d_asoc d - 1)) (comp_at comps (d_cn d))) /\
  (forall q, 0 <= q -> ~ In q (map d_cn l) -> ~ In (q + 1) (colour_asocs l) -> same (comp_at r q) (comp_at comps q)).
Proof.
  intros l. remember (length l) as n eqn:En. revert l En. induction n as [| n IH]; intros l En comps F N1 N2; destruct l as [| d l]; try discriminate En; cbn zeta.
  { split; [reflexivity |]. split; [intros d [] | intros; reflexivity]. }
  cbn [length] in En. assert (El : n = length l) by lia. inversion F as [| ? ? (Rc & Ra & Rm) Fl]; subst. cbn [map] in N1. inversion N1 as [| ? ? N1n N1l]; subst.
  cbn [apply_defs]. destruct (Z.leb_spec (zlen comps) (d_cn d)); [lia |].
  assert (Keep : forall l', ~ is_colour d \/ d_asoc d - 1 = d_cn d -> l' = l ->
     let r := apply_defs (length l) (set_nth comps (Z.to_nat (d_cn d)) (with_alpha (comp_at comps (d_cn d)) (d_typ d))) l' in
     zlen r = zlen comps /\
     (forall d', In d' (d :: l) -> is_colour d' -> same (comp_at r (d_asoc d' - 1)) (comp_at comps (d_cn d'))) /\
     (forall q, 0 <= q -> ~ In q (map d_cn (d :: l)) -> ~ In (q + 1) (colour_asocs (d :: l)) -> same (comp_at r q) (comp_at comps q))).
  { intros l' Hd ->. cbn zeta. set (comps' := set_nth _ _ _).
    assert (Hz : zlen comps' = zlen comps) by (unfold comps', zlen; rewrite set_nth_length; reflexivity).
    assert (N2l : NoDup (colour_asocs l)). { unfold colour_asocs in *. cbn [filter] in N2. destruct ((d_typ d =? 0) && _ && _); [cbn [map] in N2; inversion N2; assumption | exact N2]. }
    destruct (IH l eq_refl comps' ltac:(rewrite Hz; exact Fl) N1l N2l) as (I1 & I2 & I3). rewrite Hz in I1.
    split; [exact I1 |]. split.
    - intros d' [<- | Hd'] C'.
      + destruct Hd as [Hd | Hd]; [contradiction |]. rewrite Hd. eapply same_trans; [apply I3 | apply same_set]; try lia; [exact N1n |].
        replace (d_cn d + 1) with (d_asoc d) by lia. intros Q. unfold colour_asocs in N2. cbn [filter] in N2. destruct C' as (C1 & C2 & C3).
        destruct (Z.eqb_spec (d_typ d) 0); [| contradiction]. destruct (Z.eqb_spec (d_asoc d) 0); [contradiction |]. destruct (Z.eqb_spec (d_asoc d) 65535); [contradiction |].
        cbn [negb andb map] in N2. inversion N2 as [| ? ? Nn _]; subst. apply Nn. exact Q.
      + eapply same_trans; [apply I2; assumption |]. apply same_set; try lia. pose proof (proj1 (Forall_forall _ _) Fl d' Hd') as (Q & _). lia.
    - intros q Hq Q1 Q2. eapply same_trans; [apply I3; [exact Hq | |] | apply same_set; lia].
      + intros Q. apply Q1. right. exact Q.
      + intros Q. apply Q2. unfold colour_asocs in *. cbn [filter]. destruct ((d_typ d =? 0) && _ && _); [right; exact Q | exact Q]. }
  destruct ((d_asoc d =? 0) || (d_asoc d =? 65535)) eqn:Ea.
  { apply Keep; [| reflexivity]. left. intros (_ & C2 & C3). apply orb_true_iff in Ea. destruct Ea as [Q | Q]; apply Z.eqb_eq in Q; contradiction. }
  apply orb_false_iff in Ea. destruct Ea as [Ea1 Ea2]. apply Z.eqb_neq in Ea1, Ea2.
  destruct (Z.leb_spec (zlen comps) (d_asoc d - 1)) as [Ho | Ho].
  { (* not a colour *)
    assert (Nc : ~ is_colour d) by (intros Q; specialize (Rm Q); lia).
    assert (N2l : NoDup (colour_asocs l)). { unfold colour_asocs in *. cbn [filter] in N2. destruct ((d_typ d =? 0) && _ && _); [cbn [map] in N2; inversion N2; assumption | exact N2]. }
    destruct (IH l eq_refl comps Fl N1l N2l) as (I1 & I2 & I3). split; [exact I1 |]. split.
    - intros d' [<- | Hd'] C'; [contradiction | apply I2; assumption].
    - intros q Hq Q1 Q2. apply I3; [exact Hq | intros Q; apply Q1; right; exact Q |].
      intros Q. apply Q2. unfold colour_asocs in *. cbn [filter]. destruct ((d_typ d =? 0) && _ && _); [right; exact Q | exact Q]. }
  destruct (Z.eqb_spec (d_cn d) (d_asoc d - 1)) as [Ec | Ec]; cbn [negb andb]; [apply Keep; [right; lia | reflexivity] |].
  destruct (Z.eqb_spec (d_typ d) 0) as [Et | Et]; [| apply Keep; [left; intros (Q & _); contradiction | reflexivity]].
  (* two components change places *)
  assert (Cd : is_colour d) by (split; [exact Et | split; assumption]).
  assert (N2' : ~ In (d_asoc d) (colour_asocs l) /\ NoDup (colour_asocs l)).
  { unfold colour_asocs in *. cbn [filter] in N2. destruct (Z.eqb_spec (d_typ d) 0); [| contradiction]. destruct (Z.eqb_spec (d_asoc d) 0); [contradiction |].
    destruct (Z.eqb_spec (d_asoc d) 65535); [contradiction |]. cbn [negb andb map] in N2. inversion N2; subst. split; assumption. }
  destruct N2' as [N2n N2l]. set (cn := d_cn d) in *. set (acn := d_asoc d - 1) in *.
  set (comps' := set_nth _ (Z.to_nat cn) _).
  assert (Hz : zlen comps' = zlen comps) by (unfold comps', zlen; rewrite !set_nth_length; reflexivity).
  assert (Sw : forall q, 0 <= q -> same (comp_at comps' q) (comp_at comps (if q =? cn then acn else if q =? acn then cn else q))).
  { intros q Hq. unfold comps'. rewrite at_set by lia. unfold zlen at 1. rewrite set_nth_length. fold (zlen comps).
    destruct (Z.eqb_spec q cn) as [-> | Hc].
    - destruct (Z.ltb_spec cn (zlen comps)); [| lia]. cbn [andb]. reflexivity.
    - cbn [andb]. rewrite at_set by lia. destruct (Z.eqb_spec q acn) as [-> | Ha]; [| reflexivity]. destruct (Z.ltb_spec acn (zlen comps)); [| lia]. reflexivity. }
  assert (Fl' : Forall (range_ok (zlen comps')) (map (swap_def cn acn) l)).
  { rewrite Hz. apply Forall_forall. intros x Hx. apply in_map_iff in Hx. destruct Hx as (y & <- & Hy). pose proof (proj1 (Forall_forall _ _) Fl y Hy) as (Y1 & Y2 & Y3).
    destruct (swap_rest cn acn y) as [E1 E2]. unfold range_ok, is_colour in *. rewrite swap_cn, E1, E2. split; [| split; assumption].
    destruct (d_cn y =? cn); [lia |]. destruct (d_cn y =? acn); [lia | exact Y1]. }
  destruct (IH (map (swap_def cn acn) l) ltac:(rewrite map_length; reflexivity) comps' Fl' (nodup_swap cn acn l N1l) ltac:(rewrite colours_swap; exact N2l)) as (I1 & I2 & I3).
  rewrite colours_swap in I3. rewrite Hz in I1. split; [exact I1 |]. split.
  - intros d' [<- | Hd'] C'.
    + fold acn cn. eapply same_trans; [apply I3 |].
      * lia.
      * rewrite map_map. intros Q. apply in_map_iff in Q. destruct Q as (y & Qy & Hy). rewrite swap_cn in Qy.
        destruct (Z.eqb_spec (d_cn y) cn) as [E |]; [apply N1n; rewrite <- E; apply in_map; exact Hy |]. destruct (Z.eqb_spec (d_cn y) acn); congruence.
      * replace (acn + 1) with (d_asoc d) by (unfold acn; lia). exact N2n.
      * eapply same_trans; [apply Sw; lia |]. destruct (Z.eqb_spec acn cn); [congruence |]. rewrite Z.eqb_refl. reflexivity.
    + destruct (swap_rest cn acn d') as [E1 E2].
      assert (Q : same (comp_at (apply_defs (length l) comps' (map (swap_def cn acn) l)) (d_asoc (swap_def cn acn d') - 1)) (comp_at comps' (d_cn (swap_def cn acn d')))).
      { apply I2; [apply in_map; exact Hd' |]. unfold is_colour. rewrite E1, E2. exact C'. }
      rewrite E2 in Q. eapply same_trans; [exact Q |]. rewrite swap_cn. pose proof (proj1 (Forall_forall _ _) Fl d' Hd') as (Y1 & _).
      destruct (Z.eqb_spec (d_cn d') cn) as [E | E]; [exfalso; apply N1n; rewrite <- E; apply in_map; exact Hd' |].
      destruct (Z.eqb_spec (d_cn d') acn) as [E' | E'].
      * eapply same_trans; [apply Sw; lia |]. rewrite Z.eqb_refl, E'. reflexivity.
      * eapply same_trans; [apply Sw; lia |]. destruct (Z.eqb_spec (d_cn d') cn); [contradiction |]. destruct (Z.eqb_spec (d_cn d') acn); [contradiction |]. reflexivity.
  - intros q Hq Q1 Q2.
    assert (Hqc : q <> cn) by (intros ->; apply Q1; left; reflexivity).
    assert (Hqa : q <> acn). { intros ->. apply Q2. unfold acn. replace (d_asoc d - 1 + 1) with (d_asoc d) by lia. apply (colour_in (d :: l) d); [left; reflexivity | exact Cd]. }
    eapply same_trans; [apply I3; [exact Hq | |] |].
    + rewrite map_map. intros Q. apply in_map_iff in Q. destruct Q as (y & Qy & Hy). rewrite swap_cn in Qy.
      destruct (Z.eqb_spec (d_cn y) cn); [congruence |]. destruct (Z.eqb_spec (d_cn y) acn); [congruence |]. apply Q1. right. rewrite <- Qy. apply in_map. exact Hy.
    + intros Q. apply Q2. unfold colour_asocs in *. cbn [filter]. destruct ((d_typ d =? 0) && _ && _); [right; exact Q | exact Q].
    + eapply same_trans; [apply Sw; exact Hq |]. destruct (Z.eqb_spec q cn); [contradiction |]. destruct (Z.eqb_spec q acn); [contradiction |]. reflexivity.
Qed.

(** Definitions that leave the channels where they are set the alpha flags. *)
Definition in_place (n : Z) (d : def) : Prop :=
  0 <= d_cn d < n /\ (d_asoc d = 0 \/ d_asoc d = 65535 \/ (d_asoc d = d_cn d + 1) \/ d_typ d <> 0 /\ 0 <= d_asoc d <= n).
Theorem apply_defs_in_place : forall l comps, Forall (in_place (zlen comps)) l -> NoDup (map d_cn l) ->
  let r := apply_defs (length l) comps l in
  zlen r = zlen comps /\
  (forall d, In d l -> comp_at r (d_cn d) = with_alpha (comp_at comps (d_cn d)) (d_typ d)) /\
  (forall q, 0 <= q -> ~ In q (map d_cn l) -> comp_at r q = comp_at comps q).
Proof.
  induction l as [| d l IH]; intros comps F N; cbn zeta.
  { split; [reflexivity |]. split; [intros d [] | reflexivity]. }
  inversion F as [| ? ? (Rc & Ra) Fl]; subst. cbn [map] in N. inversion N as [| ? ? Nn Nl]; subst. cbn [length apply_defs].
  set (comps' := set_nth comps (Z.to_nat (d_cn d)) (with_alpha (comp_at comps (d_cn d)) (d_typ d))).
  destruct (Z.leb_spec (zlen comps) (d_cn d)); [lia |].
  match goal with |- context [zlen ?r = _] => assert (Er : r = apply_defs (length l) comps' l) end.
  { destruct ((d_asoc d =? 0) || (d_asoc d =? 65535)) eqn:Ea; [reflexivity |]. apply orb_false_iff in Ea. destruct Ea as [Ea1 Ea2]. apply Z.eqb_neq in Ea1, Ea2.
    destruct (Z.leb_spec (zlen comps) (d_asoc d - 1)); [lia |]. destruct (Z.eqb_spec (d_cn d) (d_asoc d - 1)); cbn [negb andb]; [reflexivity |].
    destruct (Z.eqb_spec (d_typ d) 0); [lia | reflexivity]. }
  rewrite Er. assert (Hz : zlen comps' = zlen comps) by (unfold comps', zlen; rewrite set_nth_length; reflexivity).
  destruct (IH comps' ltac:(rewrite Hz; exact Fl) Nl) as (I1 & I2 & I3). rewrite Hz in I1. split; [exact I1 |]. split.
  - intros d' [<- | Hd'].
    + rewrite I3 by first [lia | exact Nn]. unfold comps'. rewrite at_set by lia. rewrite Z.eqb_refl. destruct (Z.ltb_spec (d_cn d) (zlen comps)); [reflexivity | lia].
    + rewrite I2 by exact Hd'. unfold comps'. pose proof (proj1 (Forall_forall _ _) Fl d' Hd') as (Q & _). rewrite at_set by lia.
      destruct (Z.eqb_spec (d_cn d') (d_cn d)) as [E |]; [exfalso; apply Nn; rewrite <- E; apply in_map; exact Hd' | reflexivity].
  - intros q Hq Q1. cbn [map In] in Q1. rewrite I3 by (try exact Hq; tauto). unfold comps'. rewrite at_set by lia. destruct (Z.eqb_spec q (d_cn d)); [exfalso; apply Q1; left; congruence | reflexivity].
Qed.

(** What [check_cdef] ensures. *)
Definition channel_count (numcomps : Z) (pclr : option palette) : Z :=
  match pclr with Some p => if is_nil (p_cmap p) then numcomps else p_nr_channels p | None => numcomps end.
Theorem check_cdef_sound : forall numcomps l pclr, check_cdef numcomps (Some l) pclr = true -> Forall def_ok l ->
  let n := channel_count numcomps pclr in
  Forall (range_ok n) l /\ forall c, 1 <= c < n -> In c (map d_cn l).
Proof.
  intros numcomps l pclr E F n. unfold check_cdef in E. fold n in E.
  assert (En : (match pclr with Some p => if negb (is_nil (p_cmap p)) then p_nr_channels p else numcomps | None => numcomps end) = n).
  { unfold n, channel_count. destruct pclr as [p |]; [| reflexivity]. destruct (is_nil (p_cmap p)); reflexivity. }
  rewrite En in E. apply andb_true_iff in E. destruct E as [E1 E2]. rewrite forallb_forall in E1, E2. split.
  - apply Forall_forall. intros d Hd. specialize (E1 d Hd). apply andb_true_iff in E1. destruct E1 as [A1 A2]. apply negb_true_iff, Z.leb_gt in A1.
    pose proof (proj1 (Forall_forall _ _) F d Hd) as (B1 & B2 & B3). split; [lia |]. split; [lia |]. intros (C1 & C2 & C3).
    apply negb_true_iff in A2. destruct (Z.eqb_spec (d_asoc d) 65535); [contradiction |]. destruct (Z.ltb_spec 0 (d_asoc d)); [| lia]. cbn [negb andb] in A2. apply Z.leb_gt in A2. lia.
  - intros c Hc. specialize (E2 (Z.to_nat c)). rewrite existsb_exists in E2. destruct E2 as (d & Hd & Q); [apply in_seq; lia |].
    apply Z.eqb_eq in Q. rewrite Z2Nat.id in Q by lia. rewrite <- Q. apply in_map. exact Hd.
Qed.
