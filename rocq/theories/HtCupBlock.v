(** Proof part of C74: lines of quads, and the block. *)

From Coq Require Import ZArith List Bool Lia.
From Verif Require Import Ints HtModel HtSpec HtBits HtForward HtBackward HtMel HtMelEvents HtMelProps HtReadProps HtLuts HtCupModel HtCupSpec HtCupVlc HtCupSamples HtCupPair HtCupLines HtCupTurn.
Import ListNotations.
Local Open Scope Z_scope.

Lemma pairs_ok : forall t buf w h p zp1 L above done data0 s sp n, let y := 2 * Z.of_nat (length L) in
  Forall byte buf -> 1 <= p <= 30 -> zp1 + p <= 31 -> (2 * Z.of_nat (length done) + 4 * Z.of_nat t < w + 4 \/ t = 0%nat) -> y < h -> cells_ok p done -> above_ok p above ->
  src_inv buf (k_run s) (k_mel s) (k_vlc s) (k_ms s) (t + n) sp -> ls_inv w (length done + 2 * t) above done (k_ls s) (k_ls0 s) (k_c s) -> data_inv p w h L done data0 (k_data s) ->
  match line_spec t (if first_of above then vlc_tbl0 else vlc_tbl1) w h zp1 y above done sp with
  | None => False
  | Some None => pairs t (first_of above) buf w h p zp1 y (2 * Z.of_nat (length done)) s = Some None
  | Some (Some (done', sp')) => exists s', pairs t (first_of above) buf w h p zp1 y (2 * Z.of_nat (length done)) s = Some (Some s') /\ length done' = (length done + 2 * t)%nat /\ cells_ok p done' /\
      src_inv buf (k_run s') (k_mel s') (k_vlc s') (k_ms s') n sp' /\ ls_inv w (length done + 2 * t) above done' (k_ls s') (k_ls0 s') (k_c s') /\ data_inv p w h L done' data0 (k_data s')
  end.
Proof.
  induction t as [| t IH]; intros buf w h p zp1 L above done data0 s sp n y B Rp Rz Ht Hh Cd Ca SI LI DI; cbn [line_spec pairs].
  { exists s. split; [reflexivity |]. split; [lia |]. split; [exact Cd |]. split; [exact SI |]. split; [exact LI | exact DI]. }
  pose proof (pair_ok buf w h p zp1 L above done data0 s sp (t + n) (length done + 2 * S t) B Rp Rz ltac:(lia) Hh ltac:(lia) Cd Ca SI LI DI) as P. cbv zeta in P. fold y in P.
  destruct (pair_spec _ w h zp1 y above done sp) as [[[done1 sp1] |] |]; [| rewrite P; reflexivity | exact P].
  destruct P as (s1 & E & Ld & Cd1 & SI1 & LI1 & DI1). rewrite E. replace (length done + 2 * S t)%nat with (length done1 + 2 * t)%nat in * by lia.
  replace (2 * Z.of_nat (length done) + 4) with (2 * Z.of_nat (length done1)) by lia. apply (IH buf w h p zp1 L above done1 data0 s1 sp1 n); try assumption. rewrite Ld. lia.
Qed.

Lemma lstate_ends : forall p w nq above done ls ls0 c, cells_ok p done -> ls_inv w nq above done ls ls0 c -> length done = nq -> forall j, (j <= nq)%nat -> ls (Z.of_nat j) = lstate done j.
Proof.
  intros p w nq above done ls ls0 c Cd (I1 & I2 & _) E j J. destruct (Nat.eq_dec j nq) as [-> | N]; [| apply I2; lia]. rewrite <- E, I1. unfold lstate. rewrite at_len. cbn [expo].
  rewrite Z.max_l; [reflexivity |]. apply (expo_range p), before_ok, Cd.
Qed.
Lemma next_line : forall w nq done ls, (forall j, (j <= nq)%nat -> ls (Z.of_nat j) = lstate done j) -> ls_inv w nq (Some done) [] (set ls 0 0) (ls 0) 0.
Proof.
  intros w nq done ls H. split; [reflexivity |]. split; [intros j J; inversion J |]. split; [apply (H 0%nat); lia |]. split; [| reflexivity].
  intros j J. rewrite set_eq. cbn [length] in J. destruct (Z.eqb_spec (Z.of_nat j) 0); [lia |]. apply H. lia.
Qed.
Lemma next_data : forall p w h L done data0 data, w <= 2 * Z.of_nat (length done) -> data_inv p w h L done data0 data -> data_inv p w h (L ++ [done]) [] data0 data.
Proof.
  intros p w h L done data0 data W (D1 & D2). split; [| exact D2]. intros X Y HX HY HP. rewrite app_length in HP. cbn [length] in HP.
  assert (0 <= X / 2 < Z.of_nat (length done)) by (split; [apply Z.div_pos; lia | apply Z.div_lt_upper_bound; lia]). assert (0 <= X / 2 /\ 0 <= Y / 2) by (split; apply Z.div_pos; lia).
  rewrite sample_old by (rewrite app_length; cbn [length]; lia). apply D1; [exact HX | exact HY | lia].
Qed.

Lemma turns_facts : forall w, 1 <= w -> 4 * Z.of_nat (turns w) < w + 4 /\ w <= 4 * Z.of_nat (turns w).
Proof. intros w W. unfold turns. pose proof (Z.div_mod (w + 3) 4 ltac:(lia)). pose proof (Z.mod_pos_bound (w + 3) 4 ltac:(lia)). lia. Qed.

Lemma lines_ok : forall n buf w h p zp1 L above data0 s sp m, let y := 2 * Z.of_nat (length L) in
  Forall byte buf -> 1 <= p <= 30 -> zp1 + p <= 31 -> 1 <= w -> (y + 2 * Z.of_nat n < h + 2 \/ n = 0%nat) -> cells_ok p above ->
  src_inv buf (k_run s) (k_mel s) (k_vlc s) (k_ms s) (n * turns w + m) sp -> (forall j, (j <= 2 * turns w)%nat -> k_ls s (Z.of_nat j) = lstate above j) -> data_inv p w h L [] data0 (k_data s) ->
  Forall (cells_ok p) L ->
  match lines_spec n (turns w) vlc_tbl1 w h zp1 y L above sp with
  | None => False
  | Some None => lines n buf w h p zp1 y s = Some None
  | Some (Some L') => exists s', lines n buf w h p zp1 y s = Some (Some s') /\ length L' = (length L + n)%nat /\ Forall (cells_ok p) L' /\ data_inv p w h L' [] data0 (k_data s')
  end.
Proof.
  induction n as [| n IH]; intros buf w h p zp1 L above data0 s sp m y B Rp Rz W Hn Ca SI LI DI CL; cbn [lines_spec lines].
  { exists s. split; [reflexivity |]. split; [lia |]. split; [exact CL | exact DI]. }
  destruct (turns_facts w W) as (T1 & T2).
  pose proof (pairs_ok (turns w) buf w h p zp1 L (Some above) [] data0 (mkCup (k_run s) (k_mel s) (k_vlc s) (k_ms s) 0 (k_data s) (set (k_ls s) 0 0) (k_ls s 0)) sp (n * turns w + m) B Rp Rz) as P.
  cbv zeta in P. fold y in P. cbn [length Nat.add first_of k_run k_mel k_vlc k_ms k_c k_data k_ls k_ls0] in P. change (2 * Z.of_nat 0) with 0 in P.
  specialize (P ltac:(left; lia) ltac:(lia) (Forall_nil _) Ca ltac:(rewrite Nat.add_assoc; exact SI) (next_line w (2 * turns w) above (k_ls s) LI) DI).
  destruct (line_spec (turns w) vlc_tbl1 w h zp1 y (Some above) [] sp) as [[[l sp1] |] |]; [| rewrite P; reflexivity | exact P].
  destruct P as (s1 & E & Ll & Cl & SI1 & LI1 & DI1). rewrite E.
  pose proof (IH buf w h p zp1 (L ++ [l]) l data0 s1 sp1 m B Rp Rz W) as Q. cbv zeta in Q. replace (2 * Z.of_nat (length (L ++ [l]))) with (y + 2) in Q by (rewrite app_length; cbn [length]; unfold y; lia).
  specialize (Q ltac:(lia) Cl SI1 (lstate_ends p w (2 * turns w) (Some above) l (k_ls s1) (k_ls0 s1) (k_c s1) Cl LI1 Ll) (next_data p w h L l data0 (k_data s1) ltac:(lia) DI1)).
  specialize (Q ltac:(apply Forall_app; split; [exact CL | repeat constructor; exact Cl])).
  destruct (lines_spec n (turns w) vlc_tbl1 w h zp1 (y + 2) (L ++ [l]) l sp1) as [[L' |] |]; [| exact Q | exact Q].
  destruct Q as (s' & E' & LL & R). exists s'. split; [exact E' |]. split; [rewrite LL, app_length; cbn [length]; lia | exact R].
Qed.

Lemma twos_ok : forall p o, 1 <= p -> fits p o -> twos_complement (enc p o) = value p o.
Proof.
  intros p [[s mu] |] Hp F; [| reflexivity]. cbn [fits] in F. destruct F as (F1 & F2 & F3). unfold twos_complement, enc, value. set (a := (2 * mu + 1) * 2 ^ (p - 1)) in *.
  assert (A : 0 <= a < 2 ^ 31). { pose proof (Z.pow_pos_nonneg 2 (p - 1) ltac:(lia) ltac:(lia)). split; [unfold a; nia | exact F3]. } clearbody a.
  rewrite (land_test _ 2147483648 31) by (reflexivity || lia). change 2147483647 with (Z.ones 31). rewrite Z.land_ones, Z.mod_add, Z.mod_small by lia.
  assert (Tb : Z.testbit (a + bit s * 2 ^ 31) 31 = s).
  { rewrite <- lor_disj by lia. rewrite Z.lor_spec, (low_none a 31 31) by lia. rewrite Z.mul_pow2_bits by lia. cbn [orb]. destruct s; reflexivity. }
  rewrite Tb. destruct s; lia.
Qed.
Lemma sample_fits : forall p L x y, Forall (cells_ok p) L -> fits p (sample_at L x y).
Proof.
  intros p L x y H. unfold sample_at. apply at_ok. destruct (Nat.lt_ge_cases (Z.to_nat (y / 2)) (length L)) as [K | K].
  - rewrite Forall_forall in H. apply H, nth_In, K.
  - rewrite (nth_overflow L) by exact K. constructor.
Qed.

(** The streams of a block: the backward one, events, and the forward one; [N]
    fill bytes after each. *)
Definition streams (buf : list Z) (lcup scup : Z) (N : nat) : src :=
  mkSrc (vlc_bits (bseg buf (lcup - 2) (scup - 1) ++ repeat 0 N)) (mkMS 0 0 false (segment_bits buf lcup scup N)) (fwd_bits false (seg buf 0 (lcup - scup) ++ repeat 255 N)).

Theorem block_ok : forall base buf lcup scup w h p zp1 data ls N, Forall byte buf -> 2 <= scup <= lcup -> lcup <= Z.of_nat (length buf) -> 1 <= p <= 30 -> zp1 + p <= 31 -> 1 <= w -> 1 <= h ->
  fwd_tidy false (seg buf 0 (lcup - scup)) -> vlc_tidy (bseg buf (lcup - 2) (scup - 1)) -> 64 * ((w + 3) / 4) * ((h + 1) / 2) + 16 <= Z.of_nat N ->
  (mel_init base buf lcup scup = Some None /\ cup_block base buf lcup scup w h p zp1 data ls = Some None) \/
  exists r, block_spec vlc_tbl0 vlc_tbl1 w h zp1 (streams buf lcup scup N) = Some r /\
    match r with
    | None => cup_block base buf lcup scup w h p zp1 data ls = Some None
    | Some L => exists f, cup_block base buf lcup scup w h p zp1 data ls = Some (Some f) /\
        (forall x y, 0 <= x < w -> 0 <= y < h -> f (y * w + x) = value p (sample_at L x y)) /\ (forall j, ~ 0 <= j < w * h -> f j = data j)
    end.
Proof.
  intros base buf lcup scup w h p zp1 data ls N B Sc Lc Rp Rz W H Tf Tv HN. unfold cup_block.
  assert (Hh : (h + 1) / 2 = (h - 1) / 2 + 1) by (replace (h + 1) with (h - 1 + 1 * 2) by lia; apply Z.div_add; lia).
  pose proof (Z.div_mod (h - 1) 2 ltac:(lia)) as D1. pose proof (Z.mod_pos_bound (h - 1) 2 ltac:(lia)) as D2. assert (D3 : 0 <= (h - 1) / 2) by (apply Z.div_pos; lia).
  assert (Et : Z.of_nat (turns w) = (w + 3) / 4) by (unfold turns; rewrite Z2Nat.id; [reflexivity | apply Z.div_pos; lia]).
  set (nl := Z.to_nat ((h - 1) / 2)). assert (En : Z.of_nat nl = (h - 1) / 2) by (unfold nl; lia).
  assert (HN' : (64 * (turns w + (nl * turns w + 0)) + 16 <= N)%nat). { apply Nat2Z.inj_le. rewrite Nat2Z.inj_add, Nat2Z.inj_mul, !Nat2Z.inj_add, Nat2Z.inj_mul, En, Et. rewrite Hh in HN. change (Z.of_nat 64) with 64. change (Z.of_nat 16) with 16. change (Z.of_nat 0) with 0. nia. }
  pose proof (mel_init_ok base buf lcup scup N B Sc Lc ltac:(lia)) as P. cbn zeta in P. destruct (mel_init base buf lcup scup) as [[m |] |]; [| left; split; reflexivity | contradiction].
  right. destruct P as (restm & Qm & Lm). destruct (get_run_ok buf m restm 0 _ [] B Qm ltac:(lia)) as (run & m' & rest' & q' & k1 & S1 & Em & Ms & Q' & L').
  destruct (bseg_cons buf (lcup - 2) (scup - 1) B ltac:(lia) ltac:(lia) ltac:(lia)) as (d & E1 & E2 & Bd).
  rewrite E2 in Tv. destruct Tv as (T1 & T2). replace (lcup - 2 - 1) with (lcup - 3) in T2 by lia. replace (scup - 1 - 1) with (scup - 2) in T2 by lia.
  destruct (rev_init_ok base buf lcup scup N B Sc Lc ltac:(lia)) as (v & restv & Ev & Hv & Lv); [exists d; split; [exact E1 |]; split; [exact T1 |]; apply bwd_clean; [apply bseg_bytes, B | exact T2] |].
  assert (Bs : Forall byte (seg buf 0 (lcup - scup))).
  { unfold seg. rewrite Forall_forall in B |- *. intros e He. apply B. rewrite <- (firstn_skipn (Z.to_nat 0) buf). apply in_or_app. right.
    rewrite <- (firstn_skipn (Z.to_nat (lcup - scup))). apply in_or_app. left. exact He. }
  destruct (frwd_init_ok base buf 0 (lcup - scup) 255 N B (or_intror eq_refl) ltac:(lia) ltac:(lia) ltac:(lia) ltac:(lia) (fwd_clean _ _ _ _ Bs (or_intror eq_refl) Tf)) as (f & restf & Ef & Hf & Lf).
  rewrite Ev, Ef, Em. unfold block_spec. fold (turns w). fold nl.
  pose proof (pairs_ok (turns w) buf w h p zp1 [] None [] data (mkCup run m' v f 0 data (set ls 0 0) 0) (streams buf lcup scup N) (nl * turns w + 0) B Rp Rz) as P.
  cbv zeta in P. cbn [length Nat.add first_of k_run k_mel k_vlc k_ms k_c k_data k_ls k_ls0] in P. change (2 * Z.of_nat 0) with 0 in P. destruct (turns_facts w W) as (U1 & U2).
  specialize (P ltac:(left; lia) ltac:(lia) (Forall_nil _) I).
  assert (SI : src_inv buf run m' v f (turns w + (nl * turns w + 0)) (streams buf lcup scup N)).
  { set (K := (turns w + (nl * turns w + 0))%nat) in *. clearbody K. unfold streams. split; [| split]; cbn [s_vlc s_mel s_ms].
    - exists restv. split; [exact Hv | lia].
    - exists rest', k1, S1, q'. split; [exact Q' |]. split; [apply (mstep_refill _ _ _ _ _ Ms) | lia].
    - exists restf. split; [exact Hf | lia]. }
  specialize (P SI). specialize (P ltac:(split; [reflexivity |]; split; [intros j J; inversion J | intros _; reflexivity])).
  specialize (P ltac:(split; [intros X Y HX HY HP; cbn [length] in HP; exfalso; pose proof (Z.div_pos X 2 ltac:(lia) ltac:(lia)); pose proof (Z.div_pos Y 2 ltac:(lia) ltac:(lia)); lia | intros j _; reflexivity])).
  destruct (line_spec (turns w) vlc_tbl0 w h zp1 0 None [] (streams buf lcup scup N)) as [[[l sp1] |] |]; [| exists None; rewrite P; split; reflexivity | contradiction].
  destruct P as (s1 & Es & Ll & Cl & SI1 & LI1 & DI1). rewrite Es.
  pose proof (lines_ok nl buf w h p zp1 [l] l data s1 sp1 0 B Rp Rz W) as Q. cbv zeta in Q. cbn [length] in Q. change (2 * Z.of_nat 1) with 2 in Q.
  specialize (Q ltac:(lia) Cl SI1 (lstate_ends p w (2 * turns w) None l (k_ls s1) (k_ls0 s1) (k_c s1) Cl LI1 Ll) (next_data p w h [] l data (k_data s1) ltac:(lia) DI1) ltac:(repeat constructor; exact Cl)).
  destruct (lines_spec nl (turns w) vlc_tbl1 w h zp1 2 [l] l sp1) as [[L |] |]; [| exists None; rewrite Q; split; reflexivity | contradiction].
  destruct Q as (s2 & E3 & LL & CL & D4 & D5). rewrite E3. exists (Some L). split; [reflexivity |]. eexists. split; [reflexivity |]. split.
  - intros x y X Y. unfold convert. assert (0 <= y * w + x < w * h) by nia. replace (0 <=? y * w + x) with true by (symmetry; apply Z.leb_le; lia). replace (y * w + x <? w * h) with true by (symmetry; apply Z.ltb_lt; lia). cbn [andb].
    assert (0 <= y / 2 < Z.of_nat (length L)). { split; [apply Z.div_pos; lia |]. apply Z.div_lt_upper_bound; lia. }
    rewrite D4 by (assumption || (left; lia)). rewrite sample_old by assumption. apply twos_ok; [lia | apply sample_fits, CL].
  - intros j J. unfold convert. destruct (Z.leb_spec 0 j), (Z.ltb_spec j (w * h)); cbn [andb]; try (apply D5; lia). lia.
Qed.
