(** Whole tile components: passes, levels and the multi-level round trip. *)

From Coq Require Import ZArith List Bool Lia.
From Verif Require Import I32 Mem DwtModel DwtSpec DwtProofs DwtLines DwtForward DwtColumns.
Import ListNotations.
Local Open Scope Z_scope.
Ltac Zify.zify_post_hook ::= Z.div_mod_to_equations.

(** [m'] is [m] with each column of the region [rh] x [rw] replaced by [f] of it. *)
Definition cols_by (w rh rw : Z) (f : (Z -> Z) -> Z -> Z) (m m' : mem) : Prop :=
  (forall p c, 0 <= p < rh -> 0 <= c < rw -> m' (p * w + c) = f (fun k => m (k * w + c)) p) /\
  (forall p c, 0 <= c < w -> ~ (0 <= p < rh /\ 0 <= c < rw) -> m' (p * w + c) = m (p * w + c)).
Definition rows_by (w rh rw : Z) (f : (Z -> Z) -> Z -> Z) (m m' : mem) : Prop :=
  (forall p c, 0 <= p < rh -> 0 <= c < rw -> m' (p * w + c) = f (fun k => m (p * w + k)) c) /\
  (forall p c, 0 <= c < w -> ~ (0 <= p < rh /\ 0 <= c < rw) -> m' (p * w + c) = m (p * w + c)).

Lemma cas_parity : forall x, cas_of (x mod 2 =? 0) = x mod 2.
Proof. intros x. destruct (Z.eqb_spec (x mod 2) 0); cbn [cas_of]; lia. Qed.

(** A pass over column chunks of eight and a remainder. *)
Lemma chunked_cols : forall w rh rw (step : Z -> Z -> mem * mem -> mem * mem) f st,
  0 <= rw <= w -> 0 <= rh ->
  (forall x y : Z -> Z, (forall k, 0 <= k < rh -> x k = y k) -> forall p, 0 <= p < rh -> f x p = f y p) ->
  (forall a cols s, 0 <= a -> 1 <= cols <= 8 -> a + cols <= w ->
     (forall p c, 0 <= p < rh -> 0 <= c < cols ->
        fst (step a cols s) (p * w + (a + c)) = f (fun k => fst s (k * w + (a + c))) p) /\
     (forall p c, 0 <= c < w -> ~ (0 <= p < rh /\ a <= c < a + cols) -> fst (step a cols s) (p * w + c) = fst s (p * w + c))) ->
  cols_by w rh rw f (fst st)
    (fst (let st := for_to 0 (rw / 8) (fun k st => step (8 * k) 8 st) st in
          let j := 8 * (rw / 8) in if j <? rw then step j (rw - j) st else st)).
Proof.
  intros w rh rw step f st Hw Hh Hext Hstep. cbn zeta.
  pose (P := fun k (s : mem * mem) => k <= rw / 8 -> cols_by w rh (8 * k) f (fst st) (fst s)).
  assert (G : P (rw / 8) (for_to 0 (rw / 8) (fun k st => step (8 * k) 8 st) st)).
  { apply (for_ind P); [lia | |]; unfold P.
    - intros _. split; [intros; lia | reflexivity].
    - intros k s Hk IH _. destruct (IH ltac:(lia)) as [I1 I2].
      destruct (Hstep (8 * k) 8 s ltac:(lia) ltac:(lia) ltac:(lia)) as [S1 S2]. split.
      + intros p c Hp Hc. destruct (Z_lt_le_dec c (8 * k)) as [L | L].
        * rewrite S2 by lia. apply I1; lia.
        * replace (p * w + c) with (p * w + (8 * k + (c - 8 * k))) by lia. rewrite S1 by lia.
          apply Hext; [| exact Hp]. intros q Hq. replace (8 * k + (c - 8 * k)) with c by lia. apply I2; lia.
      + intros p c Hc Hnot. rewrite S2 by lia. apply I2; lia. }
  set (s := for_to 0 _ _ st) in *. specialize (G ltac:(lia)). destruct G as [G1 G2].
  destruct (Z.ltb_spec (8 * (rw / 8)) rw) as [L | L].
  - destruct (Hstep (8 * (rw / 8)) (rw - 8 * (rw / 8)) s ltac:(lia) ltac:(lia) ltac:(lia)) as [S1 S2].
    set (j := 8 * (rw / 8)) in *. split.
    + intros p c Hp Hc. destruct (Z_lt_le_dec c j) as [L' | L'].
      * rewrite S2 by lia. apply G1; lia.
      * replace (p * w + c) with (p * w + (j + (c - j))) by lia. rewrite S1 by lia.
        apply Hext; [| exact Hp]. intros q Hq. replace (j + (c - j)) with c by lia. apply G2; lia.
    + intros p c Hc Hnot. rewrite S2 by lia. apply G2; lia.
  - replace (8 * (rw / 8)) with rw in * by lia. split; assumption.
Qed.

(** A pass over rows. *)
Lemma all_rows : forall w rh rw (step : Z -> mem * mem -> mem * mem) f st,
  0 <= rw <= w -> 0 <= rh ->
  (forall x y : Z -> Z, (forall k, 0 <= k < rw -> x k = y k) -> forall p, 0 <= p < rw -> f x p = f y p) ->
  (forall j s, 0 <= j < rh ->
     (forall c, 0 <= c < rw -> fst (step j s) (j * w + c) = f (fun k => fst s (j * w + k)) c) /\
     (forall x, ~ j * w <= x < j * w + rw -> fst (step j s) x = fst s x)) ->
  rows_by w rh rw f (fst st) (fst (for_to 0 rh step st)).
Proof.
  intros w rh rw step f st Hw Hh Hext Hstep.
  pose (P := fun k (s : mem * mem) => k <= rh -> rows_by w k rw f (fst st) (fst s)).
  assert (G : P rh (for_to 0 rh step st)); [| apply G; lia].
  apply (for_ind P); [lia | |]; unfold P.
  - intros _. split; [intros; lia | reflexivity].
  - intros j s Hj IH _. destruct (IH ltac:(lia)) as [I1 I2]. destruct (Hstep j s Hj) as [S1 S2]. split.
    + intros p c Hp Hc. destruct (Z.eq_dec p j) as [-> | Hne].
      * rewrite S1 by lia. apply Hext; [| exact Hc]. intros k Hk. apply I2; lia.
      * rewrite S2; [apply I1; lia |]. intros E. 
        destruct (row_col w p j c (p * w + c - j * w)); lia.
    + intros p c Hc Hnot. rewrite S2; [apply I2; lia |].
      intros E. destruct (row_col w p j c (p * w + c - j * w)); [lia | lia | lia |]. apply Hnot. lia.
Qed.

(** A level on which the code does what it should: see [c25_empty_level_refuted]. *)
Definition level_ok (r : rect) : Prop := 1 <= x1 r - x0 r \/ y1 r - y0 r = 0 \/ x0 r mod 2 = 0.
Definition fits (w : Z) (r : rect) : Prop :=
  0 <= x1 r - x0 r <= w /\ 0 <= y1 r - y0 r /\ (y1 r - y0 r) * w <= 2 ^ 32.

Lemma for_id : forall {A} lo hi (f : Z -> A -> A) (P : A -> Prop) s,
  P s -> (forall i s, lo <= i < hi -> P s -> P (f i s)) -> P (for_to lo hi f s).
Proof.
  intros A lo hi f P s H Hf. destruct (Z_le_gt_dec lo hi).
  - apply (for_ind (fun _ => P)); auto.
  - rewrite for_empty by lia. exact H.
Qed.

Lemma fdwt_v_zero : forall a even stride cols st, fst (fdwt_v a 0 even stride cols st) = fst st.
Proof. intros a even stride cols [m tmp]. destruct even; reflexivity. Qed.

Lemma encode_vpass_spec : forall w r st, fits w r ->
  cols_by w (y1 r - y0 r) (x1 r - x0 r) (fline (y0 r mod 2) (y1 r - y0 r)) (fst st) (fst (encode_vpass w r st)).
Proof.
  intros w r st (Hw & Hh & Hs). unfold encode_vpass.
  set (rh := y1 r - y0 r) in *. set (rw := x1 r - x0 r) in *.
  destruct (Z.eq_dec rh 0) as [E | Hne].
  - rewrite E. split; [intros; lia |]. intros p c Hc _.
    assert (H : forall st', fst st' = fst st -> forall a cols, fst (fdwt_v a 0 (y0 r mod 2 =? 0) w cols st') = fst st).
    { intros st' H a cols. rewrite fdwt_v_zero. exact H. }
    cbn zeta.
    assert (H2 : fst (for_to 0 (rw / 8) (fun k st => fdwt_v (8 * k) 0 (y0 r mod 2 =? 0) w 8 st) st) = fst st).
    { apply (for_id 0 (rw / 8) _ (fun s => fst s = fst st)); [reflexivity |]. intros i s _ Hs'. apply H, Hs'. }
    destruct (8 * (rw / 8) <? rw); [rewrite H by exact H2 | rewrite H2]; reflexivity.
  - apply (chunked_cols w rh rw (fun a cols st => fdwt_v a rh (y0 r mod 2 =? 0) w cols st)); [exact Hw | exact Hh | |].
    + intros x y. apply fline_ext; lia.
    + intros a cols [m tmp] Ha Hc Hac. cbn [fst].
      pose proof (fdwt_v_spec a rh (y0 r mod 2 =? 0) w cols m tmp ltac:(lia) Ha ltac:(lia) Hac Hs) as H.
      rewrite cas_parity in H. exact H.
Qed.

Lemma encode_hpass_spec : forall w r st, fits w r -> level_ok r ->
  rows_by w (y1 r - y0 r) (x1 r - x0 r) (fline (x0 r mod 2) (x1 r - x0 r)) (fst st) (fst (encode_hpass w r st)).
Proof.
  intros w r st (Hw & Hh & Hs) Hok. unfold encode_hpass, level_ok in *.
  set (rh := y1 r - y0 r) in *. set (rw := x1 r - x0 r) in *.
  destruct (Z.eq_dec rw 0) as [E | Hne].
  - rewrite E. split; [intros; lia |]. intros p c Hc _. destruct Hok as [H | [H | H]]; [lia | |].
    + rewrite H. reflexivity.
    + assert (G : fst (for_to 0 rh (fun j st => fdwt_h (u32 (j * w)) 0 (x0 r mod 2 =? 0) st) st) = fst st).
      { apply (for_id 0 rh _ (fun s => fst s = fst st)); [reflexivity |]. intros i [m t] _ H'. rewrite H. cbn [Z.eqb]. exact H'. }
      rewrite G. reflexivity.
  - apply all_rows; [exact Hw | exact Hh | |].
    + intros x y. apply fline_ext; lia.
    + intros j [m tmp] Hj. cbn [fst].
      pose proof (fdwt_h_spec (u32 (j * w)) rw (x0 r mod 2 =? 0) m tmp ltac:(lia)) as H.
      rewrite cas_parity in H. cbn zeta in H. unfold u32 in *. rewrite Z.mod_small in * by nia. exact H.
Qed.

(** The lower resolution's rectangle. *)
Definition halves (lo r : rect) : Prop :=
  x0 lo = (x0 r + 1) / 2 /\ x1 lo = (x1 r + 1) / 2 /\ y0 lo = (y0 r + 1) / 2 /\ y1 lo = (y1 r + 1) / 2.

Lemma halves_sizes : forall lo r, halves lo r ->
  x1 lo - x0 lo = nlow (x0 r mod 2) (x1 r - x0 r) /\ y1 lo - y0 lo = nlow (y0 r mod 2) (y1 r - y0 r).
Proof. intros lo r (A & B & C & D). unfold nlow. lia. Qed.

Lemma decode_hpass_spec : forall w lo r st, fits w r -> halves lo r -> 0 <= x0 r ->
  rows_by w (y1 r - y0 r) (x1 r - x0 r) (iline (x0 r mod 2) (x1 r - x0 r)) (fst st) (fst (decode_hpass w lo r st)).
Proof.
  intros w lo r st (Hw & Hh & Hs) Hl H0. unfold decode_hpass. destruct (halves_sizes _ _ Hl) as [-> _].
  rewrite Z.rem_mod_nonneg by lia.
  set (rh := y1 r - y0 r) in *. set (rw := x1 r - x0 r) in *.
  apply all_rows; [exact Hw | exact Hh | |].
  - intros x y Hxy p Hp. apply (iline_ext _ _ x y); lia || assumption.
  - intros j [m buf] Hj. cbn [fst]. change (rw - nlow (x0 r mod 2) rw) with (nhigh (x0 r mod 2) rw).
    apply idwt_h_spec; lia.
Qed.

Lemma decode_vpass_spec : forall w lo r st, fits w r -> halves lo r -> 0 <= y0 r ->
  cols_by w (y1 r - y0 r) (x1 r - x0 r) (iline (y0 r mod 2) (y1 r - y0 r)) (fst st) (fst (decode_vpass w lo r st)).
Proof.
  intros w lo r st (Hw & Hh & Hs) Hl H0. unfold decode_vpass. destruct (halves_sizes _ _ Hl) as [_ ->].
  rewrite Z.rem_mod_nonneg by lia.
  set (rh := y1 r - y0 r) in *. set (rw := x1 r - x0 r) in *.
  change (rh - nlow (y0 r mod 2) rh) with (nhigh (y0 r mod 2) rh).
  apply (chunked_cols w rh rw (fun a cols st => idwt_v (nlow (y0 r mod 2) rh) (nhigh (y0 r mod 2) rh) (y0 r mod 2) a w cols st));
    [exact Hw | exact Hh | |].
  - intros x y Hxy p Hp. apply (iline_ext _ _ x y); lia || assumption.
  - intros a cols [m buf] Ha Hc Hac. cbn [fst]. apply idwt_v_spec; lia.
Qed.

(** ** One level *)

Definition region (w rh rw : Z) (P : Z -> Prop) (m : mem) : Prop :=
  forall p c, 0 <= p < rh -> 0 <= c < rw -> P (m (p * w + c)).
(** Equal on all cells of the rows of the tile component. *)
Definition same (w : Z) (m m' : mem) : Prop := forall p c, 0 <= c < w -> m (p * w + c) = m' (p * w + c).

Definition small_in (w : Z) (r : rect) (m : mem) : Prop := region w (y1 r - y0 r) (x1 r - x0 r) small m.

Lemma level_inv : forall w lo r m tmp st', fits w r -> level_ok r -> halves lo r -> 0 <= x0 r -> 0 <= y0 r ->
  small_in w r m -> small_in w r (fst (encode_vpass w r (m, tmp))) ->
  same w (fst st') (fst (encode_level w r (m, tmp))) ->
  same w (fst (decode_level w lo r st')) m.
Proof.
  intros w lo r m tmp st' Hf Hok Hl Hx Hy Hs Hs1 HE. unfold encode_level in HE. unfold decode_level.
  pose proof (encode_vpass_spec w r (m, tmp) Hf) as [V1 V2].
  set (s1 := encode_vpass w r (m, tmp)) in *.
  pose proof (encode_hpass_spec w r s1 Hf Hok) as [E1 E2].
  set (s2 := encode_hpass w r s1) in *.
  pose proof (decode_hpass_spec w lo r st' Hf Hl Hx) as [D1 D2].
  set (s3 := decode_hpass w lo r st') in *.
  pose proof (decode_vpass_spec w lo r s3 Hf Hl Hy) as [F1 F2].
  set (s4 := decode_vpass w lo r s3) in *.
  cbn [fst] in *. set (rh := y1 r - y0 r) in *. set (rw := x1 r - x0 r) in *.
  destruct Hf as (Hw & Hh & Hsz). fold rw in Hw. fold rh in Hh, Hsz.
  assert (A : forall p c, 0 <= p < rh -> 0 <= c < rw -> fst s3 (p * w + c) = fst s1 (p * w + c)).
  { intros p c Hp Hc. rewrite D1 by assumption.
    rewrite (iline_ext (x0 r mod 2) rw _ (fline (x0 r mod 2) rw (fun k => fst s1 (p * w + k)))).
    - apply (line_inv (x0 r mod 2) rw (fun k => fst s1 (p * w + k))); [lia | lia | | exact Hc].
      intros q Hq. apply Hs1; assumption.
    - lia.
    - lia.
    - intros k Hk. cbv beta. rewrite HE by lia. apply E1; assumption.
    - exact Hc. }
  intros p c Hc.
  destruct (Z_le_gt_dec 0 p) as [Hp0 | Hp0].
  2:{ rewrite F2 by lia. rewrite D2 by lia. rewrite HE by lia. rewrite E2 by lia. apply V2; lia. }
  destruct (Z_lt_le_dec p rh) as [Hp | Hp].
  2:{ rewrite F2 by lia. rewrite D2 by lia. rewrite HE by lia. rewrite E2 by lia. apply V2; lia. }
  destruct (Z_lt_le_dec c rw) as [Hcr | Hcr].
  2:{ rewrite F2 by lia. rewrite D2 by lia. rewrite HE by lia. rewrite E2 by lia. apply V2; lia. }
  rewrite F1 by lia.
  rewrite (iline_ext (y0 r mod 2) rh _ (fline (y0 r mod 2) rh (fun k => m (k * w + c)))).
  - apply (line_inv (y0 r mod 2) rh (fun k => m (k * w + c))); [lia | lia | | lia].
    intros q Hq. apply Hs; lia.
  - lia.
  - lia.
  - intros k Hk. rewrite A by lia. apply V1; lia.
  - lia.
Qed.

(** ** All levels *)

Fixpoint chain (lo : rect) (rs : list rect) : Prop :=
  match rs with [] => True | r :: rs => halves lo r /\ chain r rs end.

(** Every value a one-dimensional transform is applied to is [small];
    [rs] lists the levels in the order they are encoded. *)
Fixpoint calm (w : Z) (rs : list rect) (st : mem * mem) : Prop :=
  match rs with
  | [] => True
  | r :: rs => small_in w r (fst st) /\ small_in w r (fst (encode_vpass w r st)) /\ calm w rs (encode_level w r st)
  end.

Lemma calm_app : forall w a b st, calm w (a ++ b) st <->
  calm w a st /\ calm w b (fold_left (fun st r => encode_level w r st) a st).
Proof.
  induction a as [| r a IH]; intros b st; cbn [app calm fold_left]; [tauto |]. rewrite IH. tauto.
Qed.

Lemma decode_levels_snoc : forall w rs lo r st, decode_levels w lo (rs ++ [r]) st =
  decode_level w (last (lo :: rs) lo) r (decode_levels w lo rs st).
Proof.
  induction rs as [| a rs IH]; intros lo r st; [reflexivity |].
  cbn [app decode_levels]. rewrite IH. replace (last (lo :: a :: rs) lo) with (last (a :: rs) a); [reflexivity |].
  cbn [last]. destruct rs as [| b rs]; [reflexivity |]. generalize b. clear. 
  induction rs as [| d rs IH]; intros b; [reflexivity |]. apply (IH d).
Qed.

Lemma chain_snoc : forall rs lo r, chain lo (rs ++ [r]) <-> chain lo rs /\ halves (last (lo :: rs) lo) r.
Proof.
  induction rs as [| a rs IH]; intros lo r; cbn [app chain]; [cbn; tauto |]. rewrite IH.
  replace (last (lo :: a :: rs) lo) with (last (a :: rs) a); [tauto |].
  cbn [last]. destruct rs as [| b rs]; [reflexivity |]. generalize b. clear. 
  induction rs as [| d rs IH]; intros b; [reflexivity |]. apply (IH d).
Qed.

Lemma levels_inv : forall w rs lo st st', chain lo rs ->
  Forall (fun r => fits w r /\ level_ok r /\ 0 <= x0 r /\ 0 <= y0 r) rs -> calm w (rev rs) st ->
  same w (fst st') (fst (fold_left (fun st r => encode_level w r st) (rev rs) st)) ->
  same w (fst (decode_levels w lo rs st')) (fst st).
Proof.
  intros w rs lo. induction rs as [| r rs IH] using rev_ind; intros st st' Hch Hall Hcalm HE; [exact HE |].
  rewrite rev_app_distr in Hcalm, HE. cbn [rev app] in Hcalm, HE. cbn [calm] in Hcalm. cbn [fold_left] in HE.
  destruct Hcalm as (C1 & C2 & C3). apply chain_snoc in Hch. destruct Hch as [Hch Hl].
  apply Forall_app in Hall. destruct Hall as [Hall Hr]. inversion Hr as [| ? ? (Hf & Hok & Hx & Hy) _]; subst.
  rewrite decode_levels_snoc. destruct st as [m tmp].
  apply (level_inv w _ r m tmp); try assumption.
  apply (IH _ _ Hch Hall C3 HE).
Qed.
