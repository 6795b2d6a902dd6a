(** Skipping a packet against reading it. *)

From Coq Require Import ZArith List Bool Arith Lia ZifyNat.
From Verif Require Import I32 MathModel BioModel TgtModel T2CodesModel Ints T2PacketModel.
Import ListNotations.
Local Open Scope Z_scope.

(** What skipping does not keep up: lengths and chunks, and the passes and
    segments whose data are there. *)
Definition strip_seg (s : seg) : seg := mkSeg 0 (s_passes s) 0 (s_max s) (s_new s) (s_newlen s).
Definition strip (c : dblk) : dblk :=
  mkD (d_numsegs c) 0 (map strip_seg (d_segs c)) (d_numbps c) (d_mb c) (d_lenbits c) (d_new c) [].
Definition strip_band (b : dband) : dband :=
  mkDB (db_numbps b) (db_incl b) (db_imsb b) (map strip (db_blocks b)).

Lemma nth_strip : forall l k, nth k (map strip_seg l) seg0 = strip_seg (nth k l seg0).
Proof. intros l k. change seg0 with (strip_seg seg0) at 1. apply map_nth. Qed.

Lemma init_seg_strip : forall sty k first l, init_seg sty k first (map strip_seg l) = map strip_seg (init_seg sty k first l).
Proof.
  intros. unfold init_seg. rewrite map_app, firstn_map, nth_strip. cbn [strip_seg s_max map s_passes s_new s_newlen].
  reflexivity.
Qed.

Lemma set_seg_strip : forall k s l, set_seg k (strip_seg s) (map strip_seg l) = map strip_seg (set_seg k s l).
Proof. intros. unfold set_seg. rewrite map_app, firstn_map. cbn [map]. rewrite skipn_map. reflexivity. Qed.

Lemma dec_segs_strip : forall fuel sty l k lenbits n r,
  dec_segs fuel sty (map strip_seg l) k lenbits n r =
  match dec_segs fuel sty l k lenbits n r with Some (l, r) => Some (map strip_seg l, r) | None => None end.
Proof.
  induction fuel as [| fuel IH]; intros sty l k lenbits n r; [reflexivity |]. cbn [dec_segs].
  rewrite nth_strip. cbn [strip_seg s_max s_passes s_len s_real].
  set (nw := if negb (Z.land sty 64 =? 0) then _ else _).
  destruct (32 <? _); [reflexivity |]. destruct (bio_read r _) as [[v r1] |]; [| reflexivity].
  change (mkSeg 0 (s_passes (nth k l seg0)) 0 (s_max (nth k l seg0)) nw v)
    with (strip_seg (mkSeg (s_len (nth k l seg0)) (s_passes (nth k l seg0)) (s_real (nth k l seg0)) (s_max (nth k l seg0)) nw v)).
  rewrite set_seg_strip. destruct (0 <? _); [| reflexivity]. rewrite init_seg_strip. apply IH.
Qed.

Lemma dec_block_strip : forall fuel sty lay nb incl imsb i c r,
  dec_block fuel sty lay nb incl imsb i (strip c) r =
  match dec_block fuel sty lay nb incl imsb i c r with
  | Some (incl, imsb, c, r) => Some (incl, imsb, strip c, r)
  | None => None
  end.
Proof.
  intros. unfold dec_block. cbn [strip d_numsegs d_realsegs d_segs d_numbps d_mb d_lenbits d_new d_chunks].
  destruct (if (d_numsegs c =? 0)%nat then tgt_decode incl i (i32 (Z.of_nat lay + 1)) r
            else let '(b, r) := read1 r in (b, incl, r)) as [[inc incl1] r1].
  destruct inc; cbn [negb]; [| reflexivity].
  destruct (if (d_numsegs c =? 0)%nat then _ else _) as [[[[[imsb1 r2] nbp] mb] lb] |]; [| reflexivity].
  destruct (get_numpasses r2) as [n r3]. destruct (get_commacode fuel 0 r3) as [[x r4] |]; [| reflexivity].
  rewrite nth_strip. cbn [strip_seg s_passes s_max]. rewrite !init_seg_strip.
  set (kl := if (d_numsegs c =? 0)%nat then (0%nat, init_seg sty 0 true (d_segs c)) else _).
  match goal with |- context [let '(_, _) := ?X in _] =>
    replace X with (fst kl, map strip_seg (snd kl)) end.
  2:{ subst kl. destruct (d_numsegs c =? 0)%nat; [reflexivity |]. destruct (_ =? _); reflexivity. }
  destruct kl as [k l]. cbn [fst snd]. rewrite dec_segs_strip.
  destruct (dec_segs _ sty l k _ _ r4) as [[l2 r5] |]; reflexivity.
Qed.

Lemma dec_blocks_strip : forall l fuel sty lay nb incl imsb i r,
  dec_blocks fuel sty lay nb incl imsb i (map strip l) r =
  match dec_blocks fuel sty lay nb incl imsb i l r with
  | Some (incl, imsb, l, r) => Some (incl, imsb, map strip l, r)
  | None => None
  end.
Proof.
  induction l as [| c l IH]; intros; [reflexivity |]. cbn [map dec_blocks]. rewrite dec_block_strip.
  destruct (dec_block _ _ _ _ _ _ _ _ _) as [[[[i1 m1] c1] r1] |]; [| reflexivity]. rewrite IH.
  destruct (dec_blocks _ _ _ _ _ _ _ _ _) as [[[[i2 m2] l2] r2] |]; reflexivity.
Qed.

Lemma dec_bands_strip : forall l fuel sty lay r,
  dec_bands fuel sty lay (map strip_band l) r =
  match dec_bands fuel sty lay l r with Some (l, r) => Some (map strip_band l, r) | None => None end.
Proof.
  induction l as [| b l IH]; intros; [reflexivity |]. cbn [map dec_bands strip_band db_numbps db_incl db_imsb db_blocks].
  rewrite dec_blocks_strip.
  destruct (dec_blocks _ _ _ _ _ _ _ _ _) as [[[[i1 m1] l1] r1] |]; [| reflexivity]. rewrite IH.
  destruct (dec_bands _ _ _ _ _) as [[l2 r2] |]; reflexivity.
Qed.

Lemma dec_start_strip : forall l, map dec_start (map strip_band l) = map strip_band (map dec_start l).
Proof.
  intros l. rewrite !map_map. apply map_ext. intros b. unfold dec_start, strip_band. cbn [db_numbps db_incl db_imsb db_blocks].
  f_equal. rewrite !map_map. reflexivity.
Qed.

Lemma read_header_strip : forall sty csty lay l data,
  read_header sty csty lay (map strip_band l) data =
  match read_header sty csty lay l data with Some (l, b, d) => Some (map strip_band l, b, d) | None => None end.
Proof.
  intros. unfold read_header.
  replace (if (lay =? 0)%nat then map dec_start (map strip_band l) else map strip_band l)
    with (map strip_band (if (lay =? 0)%nat then map dec_start l else l))
    by (destruct (lay =? 0)%nat; [rewrite dec_start_strip |]; reflexivity).
  destruct (read1 _) as [p r]. destruct p; cbn [negb]; [| reflexivity]. rewrite dec_bands_strip.
  destruct (dec_bands _ _ _ _ _) as [[l2 r2] |]; [| reflexivity]. destruct (inalign r2) as [r3 ok]. destruct ok; reflexivity.
Qed.

(** Lengths read from a header fit in 32 bits. *)
Definition lens_u32 (c : dblk) : Prop := Forall (fun s => 0 <= s_newlen s < 2 ^ 32) (d_segs c).

Definition agree {A B} (f : A -> A) (n max : Z) (x : option (A * list B)) (y : option (A * Z)) : Prop :=
  match x, y with
  | Some (a, rest), Some (b, m) => f a = f b /\ n <= m <= max /\ Z.of_nat (List.length rest) = max - m
  | None, None => True
  | _, _ => False
  end.

Lemma nth_lens : forall l k, Forall (fun s => 0 <= s_newlen s < 2 ^ 32) l -> 0 <= s_newlen (nth k l seg0) < 2 ^ 32.
Proof.
  intros l k H. destruct (Nat.lt_ge_cases k (List.length l)) as [Hk | Hk].
  - apply (proj1 (Forall_forall _ _) H). apply nth_In. exact Hk.
  - rewrite nth_overflow by exact Hk. cbn. lia.
Qed.

Lemma set_lens : forall l k s, Forall (fun s => 0 <= s_newlen s < 2 ^ 32) l -> 0 <= s_newlen s < 2 ^ 32 ->
  Forall (fun s => 0 <= s_newlen s < 2 ^ 32) (set_seg k s l).
Proof.
  intros l k s H Hs. unfold set_seg. apply Forall_app. split.
  - rewrite <- (firstn_skipn k l) in H. apply Forall_app in H. apply H.
  - constructor; [exact Hs |]. rewrite <- (firstn_skipn (S k) l) in H. apply Forall_app in H. apply H.
Qed.

Lemma segs_agree : forall fuel k c c' data n max, strip c = strip c' -> lens_u32 c ->
  0 <= n -> max < 2 ^ 32 -> Z.of_nat (List.length data) = max - n ->
  agree strip n max (read_segs fuel k c data) (skip_segs fuel k c' n max).
Proof.
  induction fuel as [| fuel IH]; intros k c c' data n max Hst Hl Hn Hm Hd; [exact I |]. cbn [read_segs skip_segs].
  assert (Hs : strip_seg (nth k (d_segs c) seg0) = strip_seg (nth k (d_segs c') seg0)).
  { rewrite <- !nth_strip. f_equal. apply (f_equal d_segs) in Hst. exact Hst. }
  set (s := nth k (d_segs c) seg0) in *. set (s' := nth k (d_segs c') seg0) in *.
  assert (E1 : s_newlen s' = s_newlen s) by (apply (f_equal s_newlen) in Hs; symmetry; exact Hs).
  assert (E2 : s_passes s' = s_passes s) by (apply (f_equal s_passes) in Hs; symmetry; exact Hs).
  assert (E3 : s_max s' = s_max s) by (apply (f_equal s_max) in Hs; symmetry; exact Hs).
  assert (E4 : s_new s' = s_new s) by (apply (f_equal s_new) in Hs; symmetry; exact Hs).
  assert (E5 : d_new c' = d_new c) by (apply (f_equal d_new) in Hst; symmetry; exact Hst).
  assert (E6 : map strip_seg (d_segs c) = map strip_seg (d_segs c')) by (apply (f_equal d_segs) in Hst; exact Hst).
  assert (E7 : d_numbps c' = d_numbps c) by (apply (f_equal d_numbps) in Hst; symmetry; exact Hst).
  assert (E8 : d_mb c' = d_mb c) by (apply (f_equal d_mb) in Hst; symmetry; exact Hst).
  assert (E9 : d_lenbits c' = d_lenbits c) by (apply (f_equal d_lenbits) in Hst; symmetry; exact Hst).
  pose proof (nth_lens _ k Hl) as Hnl. fold s in Hnl. rewrite E1, E2, E3, E4, E5, E7, E8, E9.
  assert (Hcond : (u32 (n + s_newlen s) <? n) || (max <? u32 (n + s_newlen s)) = (Z.of_nat (List.length data) <? s_newlen s)).
  { unfold u32. destruct (Z.lt_ge_cases (n + s_newlen s) (2 ^ 32)) as [Hlt | Hge].
    - rewrite Z.mod_small by lia. replace (n + s_newlen s <? n) with false by (symmetry; apply Z.ltb_ge; lia). cbn [orb].
      destruct (Z.ltb_spec max (n + s_newlen s)), (Z.ltb_spec (Z.of_nat (List.length data)) (s_newlen s)); try reflexivity; lia.
    - replace ((n + s_newlen s) mod 2 ^ 32) with (n + s_newlen s - 2 ^ 32).
      2:{ apply Z.mod_unique with 1; lia. }
      replace (_ <? n) with true by (symmetry; apply Z.ltb_lt; lia). cbn [orb]. symmetry. apply Z.ltb_lt. lia. }
  rewrite Hcond. destruct (Z.ltb_spec (Z.of_nat (List.length data)) (s_newlen s)) as [Hx | Hx]; [exact I |].
  assert (Hu : u32 (n + s_newlen s) = n + s_newlen s) by (unfold u32; apply Z.mod_small; lia). rewrite Hu.
  cbn [d_new].
  assert (Hlen : Z.of_nat (List.length (skipn (Z.to_nat (s_newlen s)) data)) = max - (n + s_newlen s))
    by (rewrite skipn_length; lia).
  match goal with |- agree _ _ _ (if _ then read_segs _ _ ?C _ else _) (if _ then skip_segs _ _ ?C' _ _ else _) =>
    assert (Hst2 : strip C = strip C') end.
  { unfold strip. cbn [d_numsegs d_segs d_numbps d_mb d_lenbits d_new]. rewrite <- !set_seg_strip, E6. unfold strip_seg at 1 3.
    cbn [s_passes s_max s_new s_newlen]. reflexivity. }
  destruct (0 <? _).
  - pose proof (IH (S k) _ _ (skipn (Z.to_nat (s_newlen s)) data) (n + s_newlen s) max Hst2) as G.
    unfold agree in *. destruct (read_segs _ _ _ _) as [[a rest] |], (skip_segs _ _ _ _ _) as [[b m] |];
      try (destruct (G ltac:(apply set_lens; assumption) ltac:(lia) Hm Hlen) as (G1 & G2 & G3); split; [exact G1 | lia]);
      try (apply G; [apply set_lens; assumption | lia | exact Hm | exact Hlen]).
  - unfold agree. split; [exact Hst2 |]. lia.
Qed.

Lemma block_agree : forall c c' data n max, strip c = strip c' -> lens_u32 c ->
  0 <= n <= max -> max < 2 ^ 32 -> Z.of_nat (List.length data) = max - n ->
  agree strip n max (read_block c data) (skip_block c' n max).
Proof.
  intros c c' data n max Hst Hl Hn Hm Hd. unfold read_block, skip_block.
  assert (E5 : d_new c' = d_new c) by (apply (f_equal d_new) in Hst; symmetry; exact Hst).
  assert (E6 : map strip_seg (d_segs c) = map strip_seg (d_segs c')) by (apply (f_equal d_segs) in Hst; exact Hst).
  assert (E7 : d_numsegs c' = d_numsegs c) by (apply (f_equal d_numsegs) in Hst; symmetry; exact Hst).
  rewrite E5. destruct (d_new c =? 0); [split; [exact Hst | lia] |].
  assert (Hs : strip_seg (nth (d_numsegs c - 1) (d_segs c) seg0) = strip_seg (nth (d_numsegs c - 1) (d_segs c') seg0)).
  { rewrite <- !nth_strip. f_equal. exact E6. }
  rewrite E7.
  replace (s_passes (nth (d_numsegs c - 1) (d_segs c') seg0)) with (s_passes (nth (d_numsegs c - 1) (d_segs c) seg0))
    by (apply (f_equal s_passes) in Hs; exact Hs).
  replace (s_max (nth (d_numsegs c - 1) (d_segs c') seg0)) with (s_max (nth (d_numsegs c - 1) (d_segs c) seg0))
    by (apply (f_equal s_max) in Hs; exact Hs).
  cbv zeta. set (k := if (d_numsegs c =? 0)%nat then _ else _).
  pose proof (segs_agree (S (Z.to_nat (d_new c))) k c c' data n max Hst Hl ltac:(lia) Hm Hd) as G. unfold agree in *.
  destruct (read_segs _ k c data) as [[a rest] |], (skip_segs _ k c' n max) as [[b m] |]; try exact G.
Qed.

Lemma blocks_agree : forall l l' data n max, map strip l = map strip l' -> Forall lens_u32 l ->
  0 <= n <= max -> max < 2 ^ 32 -> Z.of_nat (List.length data) = max - n ->
  agree (map strip) n max (read_blocks l data) (skip_blocks l' n max).
Proof.
  induction l as [| c l IH]; intros l' data n max Hst Hl Hn Hm Hd; (destruct l' as [| c' l']; try discriminate);
    cbn [read_blocks skip_blocks].
  - split; [reflexivity | lia].
  - cbn [map] in Hst. inversion Hl as [| ? ? Hl1 Hl2]; subst.
    assert (H1 : strip c = strip c') by (apply (f_equal (hd (strip c))) in Hst; exact Hst).
    assert (H2 : map strip l = map strip l') by (apply (f_equal (@tl _)) in Hst; exact Hst).
    pose proof (block_agree c c' data n max H1 Hl1 Hn Hm Hd) as G. unfold agree in G |- *.
    destruct (read_block c data) as [[a rest] |], (skip_block c' n max) as [[b m] |]; try contradiction; [| exact I].
    destruct G as (G1 & G2 & G3).
    pose proof (IH l' rest m max H2 Hl2 ltac:(lia) Hm G3) as K. unfold agree in K.
    destruct (read_blocks l rest) as [[a2 rest2] |], (skip_blocks l' m max) as [[b2 m2] |]; try contradiction; [| exact I].
    destruct K as (K1 & K2 & K3). cbn [map]. rewrite G1, K1. split; [reflexivity | lia].
Qed.

Lemma data_agree : forall l l' data n max, map strip_band l = map strip_band l' -> Forall (fun b => Forall lens_u32 (db_blocks b)) l ->
  0 <= n <= max -> max < 2 ^ 32 -> Z.of_nat (List.length data) = max - n ->
  agree (map strip_band) n max (read_data l data) (skip_data l' n max).
Proof.
  induction l as [| c l IH]; intros l' data n max Hst Hl Hn Hm Hd; (destruct l' as [| c' l']; try discriminate);
    cbn [read_data skip_data].
  - split; [reflexivity | lia].
  - cbn [map] in Hst. inversion Hl as [| ? ? Hl1 Hl2]; subst.
    assert (H1 : strip_band c = strip_band c') by (apply (f_equal (hd (strip_band c))) in Hst; exact Hst).
    assert (H2 : map strip_band l = map strip_band l') by (apply (f_equal (@tl _)) in Hst; exact Hst).
    assert (E1 : map strip (db_blocks c) = map strip (db_blocks c')) by (apply (f_equal db_blocks) in H1; exact H1).
    assert (E2 : db_numbps c = db_numbps c') by (apply (f_equal db_numbps) in H1; exact H1).
    assert (E3 : db_incl c = db_incl c') by (apply (f_equal db_incl) in H1; exact H1).
    assert (E4 : db_imsb c = db_imsb c') by (apply (f_equal db_imsb) in H1; exact H1).
    pose proof (blocks_agree _ _ data n max E1 Hl1 Hn Hm Hd) as G. unfold agree in G |- *.
    destruct (read_blocks (db_blocks c) data) as [[a rest] |], (skip_blocks (db_blocks c') n max) as [[b m] |]; try contradiction; [| exact I].
    destruct G as (G1 & G2 & G3).
    pose proof (IH l' rest m max H2 Hl2 ltac:(lia) Hm G3) as K. unfold agree in K.
    destruct (read_data l rest) as [[a2 rest2] |], (skip_data l' m max) as [[b2 m2] |]; try contradiction; [| exact I].
    destruct K as (K1 & K2 & K3). cbn [map]. rewrite K1. unfold strip_band at 1 3. cbn [db_numbps db_incl db_imsb db_blocks].
    rewrite G1, E2, E3, E4. split; [reflexivity | lia].
Qed.

(** ** Lengths that come from a header *)

Lemma lor_below : forall a b n, 0 <= n -> 0 <= a < 2 ^ n -> 0 <= b < 2 ^ n -> 0 <= Z.lor a b < 2 ^ n.
Proof.
  intros a b n Hn Ha Hb. assert (H0 : 0 <= Z.lor a b) by (apply Z.lor_nonneg; lia). split; [exact H0 |].
  destruct (Z.eq_dec (Z.lor a b) 0) as [-> | Hz]; [lia |].
  apply Z.log2_lt_pow2; [lia |]. rewrite Z.log2_lor by lia.
  destruct (Z.eq_dec a 0) as [-> | Ha0]; destruct (Z.eq_dec b 0) as [-> | Hb0].
  - rewrite Z.lor_0_r in Hz. lia.
  - apply Z.max_lub_lt; [| apply Z.log2_lt_pow2; lia]. change (Z.log2 0) with 0.
    destruct (Z.eq_dec n 0) as [-> |]; [cbn in Hb |]; lia.
  - apply Z.max_lub_lt; [apply Z.log2_lt_pow2; lia |]. change (Z.log2 0) with 0.
    destruct (Z.eq_dec n 0) as [-> |]; [cbn in Ha |]; lia.
  - apply Z.max_lub_lt; apply Z.log2_lt_pow2; lia.
Qed.

Lemma getbit_bit : forall r x r', getbit r = (x, r') -> 0 <= x <= 1.
Proof.
  intros r x r' H. unfold getbit in H. cbv zeta in H. apply (f_equal fst) in H. cbn [fst] in H. subst x.
  match goal with |- 0 <= Z.land ?a 1 <= _ => generalize a end. intros a.
  pose proof (Z.land_ones a 1 ltac:(lia)) as E. change (Z.ones 1) with 1 in E. change (2 ^ 1) with 2 in E. rewrite E.
  pose proof (Z.mod_pos_bound a 2 ltac:(lia)). lia.
Qed.

Lemma read_loop_below : forall i r v x r', 0 <= v < 2 ^ 32 -> (i <= 32)%nat -> read_loop i r v = (x, r') -> 0 <= x < 2 ^ 32.
Proof.
  induction i as [| i IH]; intros r v x r' Hv Hi H; cbn [read_loop] in H; [injection H as <- _; exact Hv |].
  destruct (getbit r) as [b r1] eqn:E. apply getbit_bit in E.
  assert (B : 0 <= Z.lor v (Z.shiftl b (Z.of_nat i)) < 2 ^ 32).
  { apply lor_below; [lia | exact Hv |]. rewrite Z.shiftl_mul_pow2 by lia.
    assert (0 < 2 ^ Z.of_nat i) by (apply Z.pow_pos_nonneg; lia).
    assert (2 ^ Z.of_nat i <= 2 ^ 31) by (apply Z.pow_le_mono_r; lia). nia. }
  apply (IH _ _ _ _ B ltac:(lia) H).
Qed.

Lemma init_lens : forall sty k f l, Forall (fun s => 0 <= s_newlen s < 2 ^ 32) l ->
  Forall (fun s => 0 <= s_newlen s < 2 ^ 32) (init_seg sty k f l).
Proof.
  intros sty k f l H. unfold init_seg. apply Forall_app. split.
  - rewrite <- (firstn_skipn k l) in H. apply Forall_app in H. apply H.
  - constructor; [cbn; lia | constructor].
Qed.

Lemma dec_segs_lens : forall fuel sty l k lenbits n r l' r', Forall (fun s => 0 <= s_newlen s < 2 ^ 32) l ->
  dec_segs fuel sty l k lenbits n r = Some (l', r') -> Forall (fun s => 0 <= s_newlen s < 2 ^ 32) l'.
Proof.
  induction fuel as [| fuel IH]; intros sty l k lenbits n r l' r' Hl H; [discriminate |]. cbn [dec_segs] in H.
  set (nw := if negb (Z.land sty 64 =? 0) then _ else _) in H.
  destruct (32 <? _); [discriminate |]. destruct (bio_read r _) as [[v r1] |] eqn:E; [| discriminate].
  assert (Hv : 0 <= v < 2 ^ 32).
  { unfold bio_read in E. destruct ((0 <? _) && _) eqn:W; [| discriminate]. apply andb_prop in W. destruct W as [W1 W2].
    apply Z.ltb_lt in W1. apply Z.leb_le in W2.
    assert (E' : read_loop (Z.to_nat (u32 (lenbits + floorlog2 nw))) r 0 = (v, r1)) by congruence.
    eapply read_loop_below; [| | exact E']; lia. }
  assert (Hl2 := set_lens l k (mkSeg (s_len (nth k l seg0)) (s_passes (nth k l seg0)) (s_real (nth k l seg0)) (s_max (nth k l seg0)) nw v) Hl Hv).
  destruct (0 <? _).
  - eapply IH; [| exact H]. apply init_lens. exact Hl2.
  - injection H as <- _. exact Hl2.
Qed.

Lemma dec_block_lens : forall fuel sty lay nb incl imsb i c r incl' imsb' c' r', lens_u32 c ->
  dec_block fuel sty lay nb incl imsb i c r = Some (incl', imsb', c', r') -> lens_u32 c'.
Proof.
  intros fuel sty lay nb incl imsb i c r incl' imsb' c' r' Hl H. unfold dec_block in H.
  destruct (if (d_numsegs c =? 0)%nat then tgt_decode incl i (i32 (Z.of_nat lay + 1)) r
            else let '(b, r) := read1 r in (b, incl, r)) as [[inc incl1] r1].
  destruct inc; cbn [negb] in H; [| injection H as _ _ <- _; exact Hl].
  destruct (if (d_numsegs c =? 0)%nat then _ else _) as [[[[[imsb1 r2] nbp] mb] lb] |]; [| discriminate].
  destruct (get_numpasses r2) as [n r3]. destruct (get_commacode fuel 0 r3) as [[x r4] |]; [| discriminate].
  cbv zeta in H.
  match type of H with context [let '(_, _) := ?X in _] => assert (HX : Forall (fun s => 0 <= s_newlen s < 2 ^ 32) (snd X)); [| destruct X as [k l]] end.
  { destruct (d_numsegs c =? 0)%nat; [apply init_lens; exact Hl |]. destruct (_ =? _); [apply init_lens |]; exact Hl. }
  cbn [snd] in HX. destruct (dec_segs _ sty l k _ _ r4) as [[l2 r5] |] eqn:E; [| discriminate].
  injection H as _ _ <- _. eapply dec_segs_lens; eassumption.
Qed.

Definition bands_lens (l : list dband) : Prop := Forall (fun b => Forall lens_u32 (db_blocks b)) l.

Lemma dec_blocks_lens : forall l fuel sty lay nb incl imsb i r incl' imsb' l' r', Forall lens_u32 l ->
  dec_blocks fuel sty lay nb incl imsb i l r = Some (incl', imsb', l', r') -> Forall lens_u32 l'.
Proof.
  induction l as [| c l IH]; intros fuel sty lay nb incl imsb i r incl' imsb' l' r' Hl H; cbn [dec_blocks] in H.
  - injection H as _ _ <- _. constructor.
  - inversion Hl; subst. destruct (dec_block _ _ _ _ _ _ _ c r) as [[[[i1 m1] c1] r1] |] eqn:E; [| discriminate].
    destruct (dec_blocks _ _ _ _ _ _ _ l r1) as [[[[i2 m2] l2] r2] |] eqn:E2; [| discriminate].
    injection H as _ _ <- _. constructor; [eapply dec_block_lens; eassumption | eapply IH; eassumption].
Qed.

Lemma dec_bands_lens : forall l fuel sty lay r l' r', bands_lens l ->
  dec_bands fuel sty lay l r = Some (l', r') -> bands_lens l'.
Proof.
  induction l as [| b l IH]; intros fuel sty lay r l' r' Hl H; cbn [dec_bands] in H.
  - injection H as <- _. constructor.
  - inversion Hl; subst. destruct (dec_blocks _ _ _ _ _ _ _ (db_blocks b) r) as [[[[i1 m1] l1] r1] |] eqn:E; [| discriminate].
    destruct (dec_bands _ _ _ l r1) as [[l2 r2] |] eqn:E2; [| discriminate].
    injection H as <- _. constructor; [eapply dec_blocks_lens; eassumption | eapply IH; eassumption].
Qed.

Lemma dec_start_lens : forall l, bands_lens l -> bands_lens (map dec_start l).
Proof.
  intros l H. apply Forall_map. eapply Forall_impl; [| exact H]. intros b Hb. cbn [dec_start db_blocks].
  apply Forall_map. eapply Forall_impl; [| exact Hb]. intros c Hc. exact Hc.
Qed.

Lemma header_lens : forall sty csty lay l data l' b d, bands_lens l ->
  read_header sty csty lay l data = Some (l', b, d) -> bands_lens l'.
Proof.
  intros sty csty lay l data l' b d Hl H. unfold read_header in H.
  assert (H0 : bands_lens (if (lay =? 0)%nat then map dec_start l else l))
    by (destruct (lay =? 0)%nat; [apply dec_start_lens |]; exact Hl).
  destruct (read1 _) as [p r]. destruct p; cbn [negb] in H; [| injection H as <- _ _; exact H0].
  destruct (dec_bands _ _ _ _ _) as [[l2 r2] |] eqn:E; [| discriminate].
  destruct (inalign r2) as [r3 ok]. destruct ok; [| discriminate]. injection H as <- _ _. eapply dec_bands_lens; eassumption.
Qed.


(** ** What is left is the end of what was there *)

Definition suf {A} (a b : list A) : Prop := exists p, b = p ++ a.
Lemma suf_refl : forall {A} (a : list A), suf a a.
Proof. intros A a. exists []. reflexivity. Qed.
Lemma suf_trans : forall {A} (a b c : list A), suf a b -> suf b c -> suf a c.
Proof. intros A a b c [p ->] [q ->]. exists (q ++ p). apply app_assoc. Qed.
Lemma suf_skipn : forall {A} n (a : list A), suf (skipn n a) a.
Proof. intros A n a. exists (firstn n a). symmetry. apply firstn_skipn. Qed.
Lemma suf_length : forall {A} (a b : list A), suf a b -> (List.length a <= List.length b)%nat.
Proof. intros A a b [p ->]. rewrite app_length. lia. Qed.

Definition rsuf (r' r : bio_r) : Prop := suf (r_in r') (r_in r).
Lemma rsuf_refl : forall r, rsuf r r. Proof. intros. apply suf_refl. Qed.
Lemma rsuf_trans : forall a b c, rsuf a b -> rsuf b c -> rsuf a c. Proof. unfold rsuf. intros. eapply suf_trans; eassumption. Qed.

Lemma bytein_suf : forall r, rsuf (fst (bytein r)) r.
Proof.
  intros r. unfold rsuf, bytein. destruct (r_in r) as [| x l]; cbn [fst r_in]; [apply suf_refl | exists [x]; reflexivity].
Qed.

Lemma read_loop_suf : forall i r v, rsuf (snd (read_loop i r v)) r.
Proof.
  induction i as [| i IH]; intros r v; cbn [read_loop]; [apply rsuf_refl |].
  destruct (getbit r) as [b r1] eqn:E. eapply rsuf_trans; [apply IH |].
  unfold getbit in E. cbv zeta in E. apply (f_equal snd) in E. cbn [snd] in E. subst r1. unfold rsuf. cbn [r_in].
  destruct (r_ct r =? 0); [apply bytein_suf | apply suf_refl].
Qed.

Lemma read1_suf : forall r b r', read1 r = (b, r') -> rsuf r' r.
Proof.
  intros r b r' H. unfold read1 in H. pose proof (read_loop_suf 1 r 0) as G. destruct (read_loop 1 r 0) as [v r1].
  cbn [snd] in G. assert (r1 = r') by congruence. subst r1. exact G.
Qed.

Lemma dec_loop_suf : forall k value low r, rsuf (snd (dec_loop k value low r)) r.
Proof.
  induction k as [| k IH]; intros value low r; cbn [dec_loop]; [apply rsuf_refl |].
  destruct (low <? value); [| apply rsuf_refl]. destruct (read1 r) as [b r1] eqn:E. apply read1_suf in E.
  destruct b; [exact E |]. eapply rsuf_trans; [apply IH | exact E].
Qed.

Lemma dec_path_suf : forall p s low t r, rsuf (snd (dec_path s low t p r)) r.
Proof.
  induction p as [| i p IH]; intros s low t r; cbn [dec_path]; [apply rsuf_refl |]. cbv zeta.
  set (lw := Z.max low (n_low (s i))). pose proof (dec_loop_suf (Z.to_nat (t - lw)) (n_value (s i)) lw r) as G.
  destruct (dec_loop _ _ _ r) as [[v l] r1]. cbn [snd] in G. eapply rsuf_trans; [apply IH | exact G].
Qed.

Lemma tgt_decode_suf : forall t leaf th r b t' r', tgt_decode t leaf th r = (b, t', r') -> rsuf r' r.
Proof.
  intros t leaf th r b t' r' H. unfold tgt_decode in H. pose proof (dec_path_suf (tgt_path t leaf) (t_store t) 0 th r) as G.
  destruct (dec_path _ _ _ _ r) as [s r1]. cbn [snd] in G. injection H as _ _ <-. exact G.
Qed.

Lemma find_imsb_suf : forall fuel t leaf i r v t' r', find_imsb fuel t leaf i r = Some (v, t', r') -> rsuf r' r.
Proof.
  induction fuel as [| fuel IH]; intros t leaf i r v t' r' H; [discriminate |]. cbn [find_imsb] in H.
  destruct (tgt_decode t leaf i r) as [[b t1] r1] eqn:E. apply tgt_decode_suf in E.
  destruct b; [injection H as _ _ <-; exact E |]. eapply rsuf_trans; [eapply IH; exact H | exact E].
Qed.

Lemma readn_suf : forall k r v r', readn k r = (v, r') -> rsuf r' r.
Proof.
  intros k r v r' H. unfold readn in H. pose proof (read_loop_suf k r 0) as G. rewrite H in G. exact G.
Qed.

Lemma numpasses_suf : forall r n r', get_numpasses r = (n, r') -> rsuf r' r.
Proof.
  intros r n r' H. unfold get_numpasses in H.
  destruct (read1 r) as [b1 r1] eqn:E1. apply read1_suf in E1.
  destruct (negb b1); [apply (f_equal snd) in H; cbn [snd] in H; subst r'; exact E1 |].
  destruct (read1 r1) as [b2 r2] eqn:E2. apply read1_suf in E2. pose proof (rsuf_trans _ _ _ E2 E1) as F2. clear E1 E2.
  destruct (negb b2); [apply (f_equal snd) in H; cbn [snd] in H; subst r'; exact F2 |].
  destruct (readn 2 r2) as [v3 r3] eqn:E3. apply readn_suf in E3. pose proof (rsuf_trans _ _ _ E3 F2) as F3. clear E3 F2.
  destruct (negb (v3 =? 3)); [apply (f_equal snd) in H; cbn [snd] in H; subst r'; exact F3 |].
  destruct (readn 5 r3) as [v4 r4] eqn:E4. apply readn_suf in E4. pose proof (rsuf_trans _ _ _ E4 F3) as F4. clear E4 F3.
  destruct (negb (v4 =? 31)); [apply (f_equal snd) in H; cbn [snd] in H; subst r'; exact F4 |].
  destruct (readn 7 r4) as [v5 r5] eqn:E5. apply readn_suf in E5. pose proof (rsuf_trans _ _ _ E5 F4) as F5. clear E5 F4.
  apply (f_equal snd) in H; cbn [snd] in H; subst r'. exact F5.
Qed.

Lemma commacode_suf : forall fuel n r m r', get_commacode fuel n r = Some (m, r') -> rsuf r' r.
Proof.
  induction fuel as [| fuel IH]; intros n r m r' H; [discriminate |]. cbn [get_commacode] in H.
  destruct (read1 r) as [b r1] eqn:E. apply read1_suf in E.
  destruct b; [eapply rsuf_trans; [eapply IH; exact H | exact E] | injection H as _ <-; exact E].
Qed.

Lemma dec_segs_suf : forall fuel sty l k lenbits n r l' r', dec_segs fuel sty l k lenbits n r = Some (l', r') -> rsuf r' r.
Proof.
  induction fuel as [| fuel IH]; intros sty l k lenbits n r l' r' H; [discriminate |]. cbn [dec_segs] in H.
  set (nw := if negb (Z.land sty 64 =? 0) then _ else _) in H.
  destruct (32 <? _); [discriminate |]. destruct (bio_read r _) as [[v r1] |] eqn:E; [| discriminate].
  assert (Hr : rsuf r1 r).
  { unfold bio_read in E. destruct (_ && _); [| discriminate].
    pose proof (read_loop_suf (Z.to_nat (u32 (lenbits + floorlog2 nw))) r 0) as G.
    replace (read_loop (Z.to_nat (u32 (lenbits + floorlog2 nw))) r 0) with (v, r1) in G by congruence. exact G. }
  destruct (0 <? _).
  - eapply rsuf_trans; [eapply IH; exact H | exact Hr].
  - injection H as _ <-. exact Hr.
Qed.

Lemma dec_block_suf : forall fuel sty lay nb incl imsb i c r incl' imsb' c' r',
  dec_block fuel sty lay nb incl imsb i c r = Some (incl', imsb', c', r') -> rsuf r' r.
Proof.
  intros fuel sty lay nb incl imsb i c r incl' imsb' c' r' H. unfold dec_block in H.
  destruct (if (d_numsegs c =? 0)%nat then tgt_decode incl i (i32 (Z.of_nat lay + 1)) r
            else let '(b, r) := read1 r in (b, incl, r)) as [[inc incl1] r1] eqn:E1.
  assert (F1 : rsuf r1 r).
  { destruct (d_numsegs c =? 0)%nat; [eapply tgt_decode_suf; exact E1 |].
    destruct (read1 r) as [b r0] eqn:E0. apply read1_suf in E0. injection E1 as _ _ <-. exact E0. }
  destruct inc; cbn [negb] in H; [| injection H as _ _ _ <-; exact F1].
  cbv zeta in H. match type of H with match ?X with Some _ => _ | None => None end = _ => destruct X as [[[[[imsb1 r2] nbp] mb] lb] |] eqn:E2; [| discriminate] end.
  assert (F2 : rsuf r2 r).
  { eapply rsuf_trans; [| exact F1]. destruct (d_numsegs c =? 0)%nat; [| injection E2 as _ <- _ _ _; apply rsuf_refl].
    destruct (find_imsb 1001 imsb i 0 r1) as [[[v m1] r3] |] eqn:E3; [| discriminate].
    assert (r3 = r2) by congruence. subst r3. eapply find_imsb_suf. exact E3. }
  destruct (get_numpasses r2) as [n r3] eqn:E3. pose proof (rsuf_trans _ _ _ (numpasses_suf _ _ _ E3) F2) as F3.
  destruct (get_commacode fuel 0 r3) as [[x r4] |] eqn:E4; [| discriminate].
  pose proof (rsuf_trans _ _ _ (commacode_suf _ _ _ _ _ E4) F3) as F4. cbv zeta in H.
  match type of H with context [let '(_, _) := ?X in _] => destruct X as [k l] end.
  destruct (dec_segs _ sty l k _ _ r4) as [[l2 r5] |] eqn:E; [| discriminate].
  injection H as _ _ _ <-. eapply rsuf_trans; [eapply dec_segs_suf; exact E | exact F4].
Qed.

Lemma dec_blocks_suf : forall l fuel sty lay nb incl imsb i r incl' imsb' l' r',
  dec_blocks fuel sty lay nb incl imsb i l r = Some (incl', imsb', l', r') -> rsuf r' r.
Proof.
  induction l as [| c l IH]; intros fuel sty lay nb incl imsb i r incl' imsb' l' r' H; cbn [dec_blocks] in H.
  - injection H as _ _ _ <-. apply rsuf_refl.
  - destruct (dec_block _ _ _ _ _ _ _ c r) as [[[[i1 m1] c1] r1] |] eqn:E; [| discriminate].
    destruct (dec_blocks _ _ _ _ _ _ _ l r1) as [[[[i2 m2] l2] r2] |] eqn:E2; [| discriminate].
    injection H as _ _ _ <-. eapply rsuf_trans; [eapply IH; exact E2 | eapply dec_block_suf; exact E].
Qed.

Lemma dec_bands_suf : forall l fuel sty lay r l' r', dec_bands fuel sty lay l r = Some (l', r') -> rsuf r' r.
Proof.
  induction l as [| b l IH]; intros fuel sty lay r l' r' H; cbn [dec_bands] in H.
  - injection H as _ <-. apply rsuf_refl.
  - destruct (dec_blocks _ _ _ _ _ _ _ (db_blocks b) r) as [[[[i1 m1] l1] r1] |] eqn:E; [| discriminate].
    destruct (dec_bands _ _ _ l r1) as [[l2 r2] |] eqn:E2; [| discriminate].
    injection H as _ <-. eapply rsuf_trans; [eapply IH; exact E2 | eapply dec_blocks_suf; exact E].
Qed.

Lemma inalign_suf : forall r, rsuf (fst (inalign r)) r.
Proof.
  intros r. unfold inalign. destruct (_ =? 255); [| apply suf_refl].
  pose proof (bytein_suf r) as G. destruct (bytein r) as [r1 ok]. destruct ok; exact G.
Qed.

Lemma skip_eph_suf : forall csty d, suf (skip_eph csty d) d.
Proof. intros. unfold skip_eph. destruct (Z.land csty 4 =? 0); [apply suf_refl |]. destruct (_ <? 2); [apply suf_refl |].
  destruct (_ || _); [apply suf_refl | apply (suf_skipn 2)].
Qed.
Lemma skip_sop_suf : forall csty d, suf (skip_sop csty d) d.
Proof. intros. unfold skip_sop. destruct (Z.land csty 2 =? 0); [apply suf_refl |]. destruct (_ <? 6); [apply suf_refl |].
  destruct (_ || _); [apply suf_refl | apply (suf_skipn 6)].
Qed.

Lemma header_suf : forall sty csty lay l data l' b d, read_header sty csty lay l data = Some (l', b, d) -> suf d data.
Proof.
  intros sty csty lay l data l' b d H. unfold read_header in H. eapply suf_trans; [| apply (skip_sop_suf csty)].
  destruct (read1 (init_dec (skip_sop csty data))) as [p r] eqn:E. apply read1_suf in E. unfold rsuf in E. cbn [init_dec r_in] in E.
  destruct p; cbn [negb] in H.
  - destruct (dec_bands _ _ _ _ _) as [[l2 r2] |] eqn:E2; [| discriminate]. apply dec_bands_suf in E2.
    pose proof (inalign_suf r2) as E3. destruct (inalign r2) as [r3 ok]. destruct ok; [| discriminate].
    injection H as _ _ <-. eapply suf_trans; [apply skip_eph_suf |]. eapply suf_trans; [exact E3 |]. eapply suf_trans; [exact E2 | exact E].
  - injection H as _ _ <-. eapply suf_trans; [apply skip_eph_suf |]. eapply suf_trans; [apply inalign_suf | exact E].
Qed.

Lemma read_segs_suf : forall fuel k c data c' d, read_segs fuel k c data = Some (c', d) -> suf d data.
Proof.
  induction fuel as [| fuel IH]; intros k c data c' d H; [discriminate |]. cbn [read_segs] in H.
  destruct (_ <? _); [discriminate |]. destruct (0 <? _).
  - eapply suf_trans; [eapply IH; exact H | apply suf_skipn].
  - injection H as _ <-. apply suf_skipn.
Qed.

Lemma read_blocks_suf : forall l data l' d, read_blocks l data = Some (l', d) -> suf d data.
Proof.
  induction l as [| c l IH]; intros data l' d H; cbn [read_blocks] in H; [injection H as _ <-; apply suf_refl |].
  destruct (read_block c data) as [[c1 d1] |] eqn:E; [| discriminate].
  destruct (read_blocks l d1) as [[l2 d2] |] eqn:E2; [| discriminate]. injection H as _ <-.
  eapply suf_trans; [eapply IH; exact E2 |]. unfold read_block in E.
  destruct (d_new c =? 0); [injection E as _ <-; apply suf_refl |].
  destruct (read_segs _ _ c data) as [[c2 d3] |] eqn:E3; [| discriminate]. injection E as _ <-. eapply read_segs_suf. exact E3.
Qed.

Lemma read_data_suf : forall l data l' d, read_data l data = Some (l', d) -> suf d data.
Proof.
  induction l as [| c l IH]; intros data l' d H; cbn [read_data] in H; [injection H as _ <-; apply suf_refl |].
  destruct (read_blocks (db_blocks c) data) as [[c1 d1] |] eqn:E; [| discriminate].
  destruct (read_data l d1) as [[l2 d2] |] eqn:E2; [| discriminate]. injection H as _ <-.
  eapply suf_trans; [eapply IH; exact E2 | eapply read_blocks_suf; exact E].
Qed.

Lemma suf_unique : forall {A} (a b c : list A), suf a c -> suf b c -> List.length a = List.length b -> a = b.
Proof.
  intros A a b c [p Hp] [q Hq] Hl.
  assert (Hpq : List.length p = List.length q).
  { apply (f_equal (@List.length A)) in Hp, Hq. rewrite app_length in Hp, Hq. lia. }
  subst c. clear Hl. revert q Hq Hpq. induction p as [| x p IH]; intros q Hq Hpq; destruct q as [| y q]; try discriminate.
  - exact Hq.
  - injection Hq as _ Hq. injection Hpq as Hpq. eapply IH; eassumption.
Qed.

(** ** One packet *)

Lemma packet_agree : forall sty csty lay a b data,
  map strip_band a = map strip_band b -> bands_lens a -> Z.of_nat (List.length data) < 2 ^ 32 ->
  match decode_packet sty csty lay a data, skip_packet sty csty lay b data with
  | Some (a', rest), Some (b', rest') => map strip_band a' = map strip_band b' /\ rest = rest' /\ suf rest data
  | None, None => True
  | _, _ => False
  end.
Proof.
  intros sty csty lay a b data Hst Hl Hd. unfold decode_packet, skip_packet.
  pose proof (read_header_strip sty csty lay a data) as Ha. pose proof (read_header_strip sty csty lay b data) as Hb.
  rewrite Hst, Hb in Ha.
  pose proof (header_lens sty csty lay a data) as HL. pose proof (header_suf sty csty lay a data) as HS.
  destruct (read_header sty csty lay a data) as [[[a1 p1] d1] |], (read_header sty csty lay b data) as [[[b1 p2] d2] |];
    try discriminate; [| exact I].
  assert (E1 : map strip_band a1 = map strip_band b1) by congruence.
  assert (p1 = p2) by congruence. assert (d1 = d2) by congruence. subst p2 d2. clear Ha Hb.
  specialize (HL _ _ _ Hl eq_refl). specialize (HS _ _ _ eq_refl).
  destruct p1; [| auto].
  pose proof (suf_length _ _ HS) as HS2.
  pose proof (data_agree a1 b1 d1 0 (Z.of_nat (List.length d1)) E1 HL ltac:(lia) ltac:(lia) ltac:(lia)) as G. unfold agree in G.
  pose proof (read_data_suf a1 d1) as R.
  destruct (read_data a1 d1) as [[a2 rest] |], (skip_data b1 0 (Z.of_nat (List.length d1))) as [[b2 m] |]; try contradiction; [| exact I].
  destruct G as (G1 & G2 & G3). specialize (R _ _ eq_refl). split; [exact G1 |]. split; [| eapply suf_trans; eassumption].
  eapply suf_unique; [exact R | apply suf_skipn |]. rewrite skipn_length. lia.
Qed.

(** ** Any mixture of reading and skipping *)

Lemma skip_segs_lens : forall fuel k c n max c' m, lens_u32 c -> skip_segs fuel k c n max = Some (c', m) -> lens_u32 c'.
Proof.
  induction fuel as [| fuel IH]; intros k c n max c' m Hl H; [discriminate |]. cbn [skip_segs] in H.
  destruct (_ || _); [discriminate |].
  assert (Hl2 : forall s, s_newlen s = s_newlen (nth k (d_segs c) seg0) -> Forall (fun s => 0 <= s_newlen s < 2 ^ 32) (set_seg k s (d_segs c)))
    by (intros s Hs; apply set_lens; [exact Hl | rewrite Hs; apply nth_lens; exact Hl]).
  destruct (0 <? _).
  - eapply IH; [| exact H]. apply Hl2. reflexivity.
  - injection H as <- _. apply Hl2. reflexivity.
Qed.

Lemma skip_blocks_lens : forall l n max l' m, Forall lens_u32 l -> skip_blocks l n max = Some (l', m) -> Forall lens_u32 l'.
Proof.
  induction l as [| c l IH]; intros n max l' m Hl H; cbn [skip_blocks] in H; [injection H as <- _; constructor |].
  inversion Hl; subst. destruct (skip_block c n max) as [[c1 n1] |] eqn:E; [| discriminate].
  destruct (skip_blocks l n1 max) as [[l2 n2] |] eqn:E2; [| discriminate]. injection H as <- _.
  constructor; [| eapply IH; eassumption]. unfold skip_block in E.
  destruct (d_new c =? 0); [injection E as <- _; assumption |]. eapply skip_segs_lens; [| exact E]. assumption.
Qed.

Lemma skip_data_lens : forall l n max l' m, bands_lens l -> skip_data l n max = Some (l', m) -> bands_lens l'.
Proof.
  induction l as [| b l IH]; intros n max l' m Hl H; cbn [skip_data] in H; [injection H as <- _; constructor |].
  inversion Hl; subst. destruct (skip_blocks (db_blocks b) n max) as [[c1 n1] |] eqn:E; [| discriminate].
  destruct (skip_data l n1 max) as [[l2 n2] |] eqn:E2; [| discriminate]. injection H as <- _.
  constructor; [| eapply IH; eassumption]. eapply skip_blocks_lens; eassumption.
Qed.

Lemma skip_packet_lens : forall sty csty lay l data l' rest, bands_lens l ->
  skip_packet sty csty lay l data = Some (l', rest) -> bands_lens l'.
Proof.
  intros sty csty lay l data l' rest Hl H. unfold skip_packet in H. pose proof (header_lens sty csty lay l data) as HL.
  destruct (read_header sty csty lay l data) as [[[a p] d] |]; [| discriminate]. specialize (HL _ _ _ Hl eq_refl).
  destruct p; [| injection H as <- _; exact HL].
  destruct (skip_data a 0 _) as [[b n] |] eqn:E; [| discriminate]. injection H as <- _. eapply skip_data_lens; eassumption.
Qed.

Lemma Forall_same : forall {A} (P Q : A -> Prop) l, (forall x, P x <-> Q x) -> (Forall P l <-> Forall Q l).
Proof. intros A P Q l H. split; apply Forall_impl; intros x; apply H. Qed.

Lemma lens_strip : forall l, bands_lens l <-> bands_lens (map strip_band l).
Proof.
  intros l. unfold bands_lens. rewrite Forall_map. apply Forall_same. intros b. cbn [strip_band db_blocks]. rewrite Forall_map.
  apply Forall_same. intros c. unfold lens_u32. cbn [strip d_segs]. rewrite Forall_map. apply Forall_same. intros s. reflexivity.
Qed.

Lemma lens_alike : forall a b, map strip_band a = map strip_band b -> bands_lens a -> bands_lens b.
Proof. intros a b H Ha. apply lens_strip. rewrite <- H. apply (proj1 (lens_strip a)). exact Ha. Qed.

Definition one_packet (want : bool) (sty csty : Z) (lay : nat) (l : list dband) (data : list Z) : option (list dband * list Z) :=
  if want then decode_packet sty csty lay l data else skip_packet sty csty lay l data.

Lemma one_agree : forall w w' sty csty lay a b data,
  map strip_band a = map strip_band b -> bands_lens a -> Z.of_nat (List.length data) < 2 ^ 32 ->
  match one_packet w sty csty lay a data, one_packet w' sty csty lay b data with
  | Some (a', rest), Some (b', rest') => map strip_band a' = map strip_band b' /\ rest = rest' /\ suf rest data /\ bands_lens a'
  | None, None => True
  | _, _ => False
  end.
Proof.
  intros w w' sty csty lay a b data Hst Hl Hd.
  pose proof (lens_alike _ _ Hst Hl) as Hlb.
  pose proof (packet_agree sty csty lay a a data eq_refl Hl Hd) as Gaa.
  pose proof (packet_agree sty csty lay a b data Hst Hl Hd) as Gab.
  pose proof (packet_agree sty csty lay b b data eq_refl Hlb Hd) as Gbb.
  pose proof (skip_packet_lens sty csty lay a data) as La.
  unfold one_packet.
  destruct (decode_packet sty csty lay a data) as [[a1 r1] |], (skip_packet sty csty lay a data) as [[a2 r2] |]; try contradiction;
    destruct (skip_packet sty csty lay b data) as [[b2 r3] |]; try contradiction;
    destruct (decode_packet sty csty lay b data) as [[b1 r4] |]; try contradiction.
  - destruct Gaa as (A1 & A2 & A3), Gab as (B1 & B2 & B3), Gbb as (C1 & C2 & C3).
    specialize (La _ _ Hl eq_refl).
    assert (La1 : bands_lens a1) by (eapply lens_alike; [symmetry; exact A1 | exact La]).
    destruct w, w'; (split; [congruence |]); (split; [congruence |]); (split; [congruence |]); assumption.
  - destruct w, w'; exact I.
Qed.
