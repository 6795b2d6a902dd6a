(** Property C56: code-blocks through the packets of a precinct.
    Property C57: a tile's packets in sequence. *)

From Coq Require Import ZArith List Bool Arith Lia ZifyNat.
From Verif Require Import I32 MathModel ZBits Mem BioModel BioSpec BioProofs BioStream TgtModel TgtProofs TgtCoding TgtProps
  T2CodesModel T2CodesProofs Ints T2PacketModel T2PacketSpec T2PacketSegs T2PacketProofs T2PacketBands T2PacketRoom T2PacketProps
  T1Model T1Trip T1Props T1Length CblkModel CblkTrip CblkSound PiModel PiSpec PiDeliver PiProps PacketsModel PacketsProofs PacketsOrder PacketsRoom.
Import ListNotations.
Local Open Scope Z_scope.

(** ** Code-blocks, at both ends *)

(** A code-block to be coded: size, coefficients (of [a_bits] bits), the buffer it
    is coded into, and the number of passes up to the end of each layer. *)
Record area := mkArea { a_w : Z; a_h : Z; a_x : Z -> Z -> Z; a_bits : Z; a_start : Z; a_mem : mem; a_cuts : list nat }.
(** The code-blocks of a precinct in a sub-band: orientation, bit-planes. *)
Record piece := mkPiece { pc_orient : Z; pc_planes : Z; pc_areas : list area }.

Definition code (sty orient : Z) (a : area) : option coded := encoded (a_start a) (a_w a) (a_h a) orient sty (a_x a) (a_mem a).

(** The coefficients fit the sub-band's bit-planes; layers are in order. *)
Definition usable (sty roi orient nb : Z) (nlay : nat) (a : area) : Prop :=
  Fits (a_w a) (a_h a) orient (a_start a) (a_bits a) (a_x a) (a_mem a) /\ a_bits a <= nb /\ roi + a_bits a <= 30 /\ length (a_cuts a) = nlay /\
  forall k, code sty orient a = Some k -> ascending 0 (a_cuts a) (length (k_rates k)).

(** The encoder's side: what the block coder made of them; the decoder's: blocks
    without data. The trees are of the size of the precinct, whatever they hold. *)
Definition handed (sty orient : Z) (a : area) (c : ecblk) : Prop := exists k, code sty orient a = Some k /\ c = coded_block k (a_cuts a).
Definition prepared (sty roi : Z) (nlay : nat) (pc : piece) (b : eband) (d : dband) : Prop :=
  eb_numbps b = pc_planes pc /\ db_numbps d = pc_planes pc /\ pc_planes pc <= 990 /\
  Forall (usable sty roi (pc_orient pc) (pc_planes pc) nlay) (pc_areas pc) /\
  Forall2 (handed sty (pc_orient pc)) (pc_areas pc) (eb_blocks b) /\
  length (db_blocks d) = length (pc_areas pc) /\ Forall (fun c => d_numbps c = 0 /\ d_chunks c = []) (db_blocks d) /\
  (pc_areas pc = [] \/ exists w h t, tgt_create w h = Some t /\ (w * h)%nat = length (pc_areas pc) /\
     reached t (eb_incl b) /\ reached t (eb_imsb b) /\ reached t (db_incl d) /\ reached t (db_imsb d)).
Inductive all_prepared (sty roi : Z) (nlay : nat) : list piece -> list eband -> list dband -> Prop :=
| prepared_nil : all_prepared sty roi nlay [] [] []
| prepared_cons : forall pc pcs b bs d ds, prepared sty roi nlay pc b d -> all_prepared sty roi nlay pcs bs ds ->
    all_prepared sty roi nlay (pc :: pcs) (b :: bs) (d :: ds).

(** What comes out of the block decoder after [n] layers, if they end with a
    segment: the coefficients but for bit-planes of passes left out. *)
Definition shown (sty roi orient : Z) (n : nat) (a : area) (d : dblk) : Prop :=
  exists k, code sty orient a = Some k /\
  let p := cut (a_cuts a) n in
  ((p = 0 \/ p = length (k_rates k) \/ ends sty (p - 1))%nat ->
   exists v, decode_block (a_w a) (a_h a) orient roi sty d = Some v /\
     forall x y, 0 <= x < a_w a -> 0 <= y < a_h a -> exists q, 0 <= q /\ plane_known (Z.of_nat (length (k_rates k)) - Z.of_nat p) q /\
       output roi (v (y * a_w a + x)) = rebuilt (a_x a x y) q).
(** The coefficients themselves. *)
Definition exact (sty roi orient : Z) (a : area) (d : dblk) : Prop :=
  exists v, decode_block (a_w a) (a_h a) orient roi sty d = Some v /\
    forall x y, 0 <= x < a_w a -> 0 <= y < a_h a -> output roi (v (y * a_w a + x)) = a_x a x y.
(** All passes are in the first [n] layers. *)
Definition complete (sty orient : Z) (n : nat) (a : area) : Prop :=
  forall k, code sty orient a = Some k -> cut (a_cuts a) n = length (k_rates k).

Definition all_shown (sty roi : Z) (n : nat) (pcs : list piece) (ds : list dband) : Prop :=
  Forall2 (fun pc d => Forall2 (shown sty roi (pc_orient pc) n) (pc_areas pc) (db_blocks d)) pcs ds.
Definition all_exact (sty roi : Z) (pcs : list piece) (ds : list dband) : Prop :=
  Forall2 (fun pc d => Forall2 (exact sty roi (pc_orient pc)) (pc_areas pc) (db_blocks d)) pcs ds.
Definition all_complete (sty : Z) (n : nat) (pcs : list piece) : Prop :=
  Forall (fun pc => Forall (complete sty (pc_orient pc) n) (pc_areas pc)) pcs.

Lemma shown_exact : forall sty roi orient n a d, shown sty roi orient n a d -> complete sty orient n a -> exact sty roi orient a d.
Proof.
  intros sty roi orient n a d (k & E & S) C. cbv zeta in S. specialize (C k E). destruct S as (v & D & V); [right; left; exact C |].
  exists v. split; [exact D |]. intros x y Hx Hy. destruct (V x y Hx Hy) as (q & Hq & [_ Q] & ->). rewrite C, Z.sub_diag in Q. rewrite (Q eq_refl). apply rebuilt_all.
Qed.

Lemma all_shown_exact : forall sty roi n pcs ds, all_shown sty roi n pcs ds -> all_complete sty n pcs -> all_exact sty roi pcs ds.
Proof.
  intros sty roi n pcs ds H. induction H as [| pc d pcs ds H1 H IH]; intros C; [constructor |]. inversion C as [| ? ? C1 C2]; subst. constructor; [| apply IH, C2].
  clear - H1 C1. revert H1 C1. generalize (pc_areas pc) (db_blocks d). induction 1 as [| a c l m S F IH]; intros C; [constructor |]. inversion C; subst. constructor; [| auto].
  eapply shown_exact; eassumption.
Qed.

(** ** The packet layer's view *)

Lemma handed_ok : forall sty roi orient nb nlay a c, usable sty roi orient nb nlay a -> nb <= 990 -> handed sty orient a c -> block_ok sty nlay nb c.
Proof.
  intros sty roi orient nb nlay a c (F & Hb & Hr & Hn & Hk) Hnb (k & E & ->). pose proof (Hk k E) as Hc. pose proof (coded_short _ _ _ _ _ _ _ _ _ F E) as Hd.
  pose proof (coded_ok _ _ _ _ _ _ _ _ _ F E) as C. pose proof (fit_bits _ _ _ _ _ _ _ F) as Hbits.
  rewrite (coded_block_is sty _ k _ C ltac:(lia)). destruct C as [Pl Te Ra By]. rewrite <- Hn.
  assert (Hlow : - 6 < i32 (k_numbps k) <= a_bits a).
  { destruct Pl as [[P0 [P1 | P1]] | [P1 P2]].
    - rewrite P1. change (i32 0) with 0. lia.
    - rewrite i32_big by lia. lia.
    - rewrite i32_id by (unfold in_i32; lia). lia. }
  refine (proj1 (c20_blocks sty (i32 (k_numbps k)) nb (k_rates k) (k_data k) (a_cuts a) Ra By Hd Hc _ _ _)); [| lia | lia].
  destruct Pl as [[P0 _] | [P1 P2]]; [left; split; [exact P0 | lia] | right]. rewrite i32_id by (unfold in_i32; lia). split; [lia | exact P2].
Qed.

Lemma prepared_paired : forall sty roi nlay pcs es ds, all_prepared sty roi nlay pcs es ds -> Forall2 (paired sty nlay) es ds.
Proof.
  intros sty roi nlay pcs es ds H. induction H as [| pc pcs b bs d ds (P1 & P2 & P3 & P4 & P5 & P6 & P7 & P8) H IH]; [constructor |]. constructor; [| exact IH].
  assert (L : length (eb_blocks b) = length (pc_areas pc)) by (clear - P5; induction P5; cbn [length]; congruence).
  unfold paired. split; [congruence |]. split; [congruence |]. split.
  { rewrite P1. clear - P3 P4 P5. revert P4. induction P5 as [| a c l m Hh F IH]; intros P4; [constructor |]. inversion P4; subst. constructor; [| auto]. eapply handed_ok; eassumption. }
  split; [eapply Forall_impl; [| exact P7]; intros c [_ X]; exact X |].
  destruct P8 as [P8 | (w & h & t & T1 & T2 & T3)]; [left; rewrite P8 in L; destruct (eb_blocks b); [reflexivity | discriminate] | right].
  exists w, h, t. split; [exact T1 |]. split; [congruence | exact T3].
Qed.

Lemma prepared_sound : forall sty roi nlay pcs es ds, all_prepared sty roi nlay pcs es ds -> Forall (fun b => Forall sound (db_blocks b)) (map dec_start ds).
Proof.
  intros sty roi nlay pcs es ds H. apply start_sound. induction H as [| pc pcs b bs d ds (P1 & P2 & P3 & P4 & P5 & P6 & P7 & P8) H IH]; [constructor |]. constructor; [| exact IH].
  eapply Forall_impl; [| exact P7]. intros c [X _]. exact X.
Qed.

Lemma known_shown : forall sty roi orient nb nlay n a c d, 0 <= roi -> roi = 0 \/ Z.land sty CBLKSTY_LAZY = 0 -> usable sty roi orient nb nlay a -> nb <= 990 ->
  handed sty orient a c -> (n <= nlay)%nat -> T2PacketSpec.known sty n nb c d -> sound d -> shown sty roi orient n a d.
Proof.
  intros sty roi orient nb nlay n a c d Hr0 Hraw (F & Hb & Hr & Hn & Hk) Hnb (k & E & ->) Hle K S. pose proof (Hk k E) as Hc. pose proof (coded_short _ _ _ _ _ _ _ _ _ F E) as Hd. exists k. split; [exact E |]. cbv zeta. intros Hp.
  apply (block_through (a_start a) (a_w a) (a_h a) orient sty (a_bits a) (a_x a) (a_mem a) roi k (a_cuts a) n nb d); try assumption; lia.
Qed.

Lemma bands_shown : forall sty roi nlay n pcs es ds ds', 0 <= roi -> roi = 0 \/ Z.land sty CBLKSTY_LAZY = 0 -> (n <= nlay)%nat -> all_prepared sty roi nlay pcs es ds ->
  Forall2 (fun b d => Forall2 (T2PacketSpec.known sty n (eb_numbps b)) (eb_blocks b) (db_blocks d)) es ds' -> Forall (fun b => Forall sound (db_blocks b)) ds' ->
  all_shown sty roi n pcs ds'.
Proof.
  intros sty roi nlay n pcs es ds ds' Hr0 Hraw Hn H. revert ds'. induction H as [| pc pcs b bs d ds (P1 & P2 & P3 & P4 & P5 & P6 & P7 & P8) H IH]; intros ds' K S;
    inversion K as [| ? d' ? ds2 K1 K2]; subst; [constructor |]. inversion S as [| ? ? S1 S2]; subst. constructor; [| apply IH; assumption].
  rewrite P1 in K1. clear - Hr0 Hraw Hn P3 P4 P5 K1 S1. revert P4 K1 S1. generalize (db_blocks d'). induction P5 as [| a c l m Hh F IH]; intros ks P4 K S;
    inversion K as [| ? k ? ks' K1 K2]; subst; [constructor |]. inversion P4; subst. inversion S; subst. constructor; [| apply IH; assumption]. eapply known_shown; eassumption.
Qed.

Lemma linked_known : forall sty nlay n b0 es ds, Forall2 band_sb b0 es -> Forall2 (band_rel sty n nlay) es ds ->
  Forall2 (fun b d => Forall2 (T2PacketSpec.known sty n (eb_numbps b)) (eb_blocks b) (db_blocks d)) b0 ds.
Proof.
  intros sty nlay n b0 es ds H. revert ds. induction H as [| b b' bs bs' [A1 A2] H IH]; intros ds R; inversion R as [| ? d ? ds' (R1 & R2 & R3 & _) R4]; subst; constructor; [| apply IH, R4].
  rewrite A1 in R3. clear - A2 R3. revert R3. generalize (db_blocks d). induction A2 as [| c c' l l' Hs A IH]; intros dl R; inversion R as [| ? e ? dl' X1 X2]; subst; constructor; [| apply IH, X2].
  eapply known_sb; [exact Hs | apply brel_known; exact X1].
Qed.

Lemma start_sb : forall es, Forall2 band_sb es (map enc_start es).
Proof.
  induction es as [| b es IH]; cbn [map]; constructor; [| exact IH]. split; [reflexivity |]. unfold enc_start. cbn [eb_blocks].
  induction (eb_blocks b) as [| c l IHl]; cbn [map]; constructor; [| exact IHl]. split; [reflexivity | split; reflexivity].
Qed.

Lemma layers_sound : forall bufs sty csty lay ds ds' rests, (lay <> 0 \/ bufs <> [])%nat ->
  Forall (fun b => Forall sound (db_blocks b)) (if (lay =? 0)%nat then map dec_start ds else ds) ->
  decode_layers sty csty lay ds bufs = Some (ds', rests) -> Forall (fun b => Forall sound (db_blocks b)) ds'.
Proof.
  induction bufs as [| buf bufs IH]; intros sty csty lay ds ds' rests Hl Sd H; cbn [decode_layers] in H.
  - destruct (Nat.eqb_spec lay 0); [destruct Hl; contradiction |]. assert (ds' = ds) as -> by congruence. exact Sd.
  - destruct (decode_packet sty csty lay ds buf) as [[d1 rest] |] eqn:E; [| discriminate]. destruct (decode_layers sty csty (S lay) d1 bufs) as [[d2 rs] |] eqn:E2; [| discriminate].
    assert (ds' = d2) as -> by congruence. exact (IH sty csty (S lay) d1 d2 rs ltac:(lia) (packet_sound _ _ _ _ _ _ _ Sd E) E2).
Qed.

(** ** C56 *)

(** Code-blocks coded, put into the packets of a precinct, read back and decoded:
    the coefficients, but for the bit-planes of passes that are in no layer. *)
Theorem c56_precinct : forall sty roi csty jobs pcs es ds pkts es' rests,
  Z.land sty 64 = 0 -> 0 <= roi -> roi = 0 \/ Z.land sty CBLKSTY_LAZY = 0 -> jobs <> [] -> (length jobs <= 999)%nat ->
  all_prepared sty roi (length jobs) pcs es ds ->
  encode_layers csty 0 jobs es = Some (pkts, es') -> length rests = length pkts -> Forall (Forall byte_range) rests ->
  exists ds', decode_layers sty csty 0 ds (map (fun x => fst x ++ snd x) (combine pkts rests)) = Some (ds', rests) /\
    all_shown sty roi (length jobs) pcs ds'.
Proof.
  intros sty roi csty jobs pcs es ds pkts es' rests Hht Hr0 Hraw Hne H9 HP He Hl Hr.
  destruct (c20_round_trip sty csty jobs es ds pkts es' rests Hht Hne H9 (prepared_paired _ _ _ _ _ _ HP) He Hl Hr) as (ds' & D & K). exists ds'. split; [exact D |].
  apply (bands_shown sty roi (length jobs) (length jobs) pcs es ds ds' Hr0 Hraw (le_n _) HP K).
  apply (layers_sound _ sty csty 0 ds ds' rests) with (3 := D); [| exact (prepared_sound _ _ _ _ _ _ HP)].
  right. destruct jobs as [| [pn room] jobs]; [contradiction |]. cbn [encode_layers] in He. destruct (encode_packet _ _ _ _ _) as [[b1 e1] |]; [| discriminate].
  destruct (encode_layers _ _ _ _) as [[p2 e2] |]; [| discriminate]. assert (pkts = b1 :: p2) as -> by congruence. destruct rests; [discriminate |]. discriminate.
Qed.

(** If the layers hold all passes, exactly the coefficients. *)
Theorem c56_lossless : forall sty roi csty jobs pcs es ds pkts es' rests,
  Z.land sty 64 = 0 -> 0 <= roi -> roi = 0 \/ Z.land sty CBLKSTY_LAZY = 0 -> jobs <> [] -> (length jobs <= 999)%nat ->
  all_prepared sty roi (length jobs) pcs es ds -> all_complete sty (length jobs) pcs ->
  encode_layers csty 0 jobs es = Some (pkts, es') -> length rests = length pkts -> Forall (Forall byte_range) rests ->
  exists ds', decode_layers sty csty 0 ds (map (fun x => fst x ++ snd x) (combine pkts rests)) = Some (ds', rests) /\ all_exact sty roi pcs ds'.
Proof.
  intros sty roi csty jobs pcs es ds pkts es' rests Hht Hr0 Hraw Hne H9 HP HC He Hl Hr.
  destruct (c56_precinct sty roi csty jobs pcs es ds pkts es' rests Hht Hr0 Hraw Hne H9 HP He Hl Hr) as (ds' & D & S). exists ds'. split; [exact D |].
  exact (all_shown_exact _ _ _ _ _ S HC).
Qed.

(** And with enough room there are such packets. *)
Theorem c56_succeeds : forall sty roi csty nlay pcs es ds, Z.land sty 64 = 0 -> (nlay <= 999)%nat -> all_prepared sty roi nlay pcs es ds ->
  exists R, forall jobs, length jobs = nlay -> Forall (fun j => R <= snd j) jobs -> exists pkts es', encode_layers csty 0 jobs es = Some (pkts, es').
Proof. intros sty roi csty nlay pcs es ds Hht H9 HP. exact (c20_succeeds sty csty nlay es ds Hht H9 (prepared_paired _ _ _ _ _ _ HP)). Qed.

(** ** C57 *)

(** A tile: at each place the code-blocks of a precinct of a resolution, at the
    encoder and at the decoder. *)
Definition tile_prepared (sty roi : Z -> Z) (nlay : nat) (pcs : place -> list piece) (es : place -> list eband) (ds : place -> list dband) : Prop :=
  forall p, all_prepared (sty (comp_of p)) (roi (comp_of p)) nlay (pcs p) (es p) (ds p).
Definition styles_ok (sty roi : Z -> Z) : Prop :=
  forall c, Z.land (sty c) 64 = 0 /\ 0 <= roi c /\ (roi c = 0 \/ Z.land (sty c) CBLKSTY_LAZY = 0).

(** Packets in any sequence in which the layers of each precinct come in turn
    are read back from the concatenated tile-parts, and no byte more. *)
Theorem c57_packets : forall sty roi csty nlay pcs es ds packno parts bufs es' rest,
  styles_ok sty roi -> (nlay <= 999)%nat -> tile_prepared sty roi nlay pcs es ds ->
  let out := concat (map snd parts) in
  in_turn out -> Forall (fun q => 0 <= layer_no q < Z.of_nat nlay) out ->
  write_parts csty packno (Z.of_nat nlay) es parts = Some (bufs, es') -> Forall byte_range rest ->
  exists ds', read_packets sty csty (fun _ => true) ds out (concat bufs ++ rest) = Some (ds', rest) /\
    forall p, at_place p out <> [] -> all_shown (sty (comp_of p)) (roi (comp_of p)) (length (at_place p out)) (pcs p) (ds' p).
Proof.
  intros sty roi csty nlay pcs es ds packno parts bufs es' rest HS H9 HP out HT HV HW Hrest.
  assert (HL : forall p, linked sty nlay es p 0 (es p) (ds p)).
  { intros p. unfold linked. cbn [Nat.eqb]. split; [| split].
    - pose proof (prepared_paired _ _ _ _ _ _ (HP p)) as X. induction X; cbn [map]; constructor; [apply paired_start; assumption | assumption].
    - clear. induction (map enc_start (es p)) as [| b l IH]; constructor; [| exact IH]. split; [reflexivity |]. induction (eb_blocks b); constructor; [split; [reflexivity | split; reflexivity] | assumption].
    - exact (prepared_sound _ _ _ _ _ _ (HP p)). }
  destruct (parts_bytes sty csty nlay es (fun c => proj1 (HS c)) H9 parts packno es ds (fun _ => 0%nat) bufs es' HL HT HV HW) as [_ R].
  destruct (R rest Hrest) as (ds' & D & L & _). exists ds'. split; [exact D |]. intros p Hp. specialize (L p). fold out in L. cbn [Nat.add] in L.
  destruct (HS (comp_of p)) as (S1 & S2 & S3). destruct L as (L1 & L2 & L3). cbv zeta in L1, L2, L3.
  destruct (Nat.eqb_spec (length (at_place p out)) 0) as [Z0 | NZ]; [destruct (at_place p out); [contradiction | discriminate] |].
  assert (Hle : (length (at_place p out) <= nlay)%nat).
  { pose proof (HT p) as T. destruct (Nat.le_gt_cases (length (at_place p out)) nlay) as [| G]; [assumption |]. exfalso.
    assert (I : In (Z.of_nat nlay) (map layer_no (at_place p out))) by (rewrite T; apply in_map, in_seq; lia).
    apply in_map_iff in I. destruct I as (q & Q1 & Q2). apply in_place in Q2. rewrite Forall_forall in HV. specialize (HV q (proj1 Q2)). lia. }
  apply (bands_shown _ _ nlay _ (pcs p) (es p) (ds p) (ds' p) S2 S3 Hle (HP p)); [| exact L3].
  apply (linked_known _ nlay _ (es p) (es' p)); [| exact L1]. eapply band_sb_trans; [apply start_sb | exact L2].
Qed.

(** With enough room the encoder writes them. *)
Theorem c57_succeeds : forall sty roi csty nlay pcs es ds out,
  styles_ok sty roi -> (nlay <= 999)%nat -> tile_prepared sty roi nlay pcs es ds ->
  in_turn out -> Forall (fun q => 0 <= layer_no q < Z.of_nat nlay) out ->
  exists R, forall packno parts, concat (map snd parts) = out -> Forall (fun p => R * Z.of_nat (length (snd p)) <= fst p < 2 ^ 32) parts ->
    exists bufs es', write_parts csty packno (Z.of_nat nlay) es parts = Some (bufs, es').
Proof.
  intros sty roi csty nlay pcs es ds out HS H9 HP HT HV.
  assert (HL : forall p, linked sty nlay es p 0 (es p) (ds p)).
  { intros p. unfold linked. cbn [Nat.eqb]. split; [| split].
    - pose proof (prepared_paired _ _ _ _ _ _ (HP p)) as X. induction X; cbn [map]; constructor; [apply paired_start; assumption | assumption].
    - clear. induction (map enc_start (es p)) as [| b l IH]; constructor; [| exact IH]. split; [reflexivity |]. induction (eb_blocks b); constructor; [split; [reflexivity | split; reflexivity] | assumption].
    - exact (prepared_sound _ _ _ _ _ _ (HP p)). }
  destruct (packets_room sty csty nlay es (fun c => proj1 (HS c)) H9 out es ds (fun _ => 0%nat) HL HT HV) as (R & R0 & HR). exists R.
  intros packno parts E Hroom. apply (parts_room csty nlay out es R R0 HR HV parts [] packno); [symmetry; exact E | exact Hroom].
Qed.

Lemma placed : forall T out p n, in_turn out -> (forall q, In q out <-> valid T q) -> (exists l, valid T (l, fst (fst p), snd (fst p), snd p)) -> Z.of_nat n = t_layers T ->
  length (at_place p out) = n.
Proof.
  intros T out [[r c] k] n HT HI [l0 HV] Hn. cbn [fst snd] in HV. set (p := (r, c, k)).
  assert (X : forall l, In l (map layer_no (at_place p out)) <-> 0 <= l < Z.of_nat n).
  { intros l. rewrite in_map_iff. split.
    - intros ([[[l' r'] c'] k'] & E & I). apply in_place in I. destruct I as [I _]. apply HI in I. cbn [layer_no] in E. unfold valid in I. lia.
    - intros H. exists (l, r, c, k). split; [reflexivity |]. apply in_place. split; [| reflexivity]. apply HI. unfold valid in *. intuition lia. }
  pose proof (HT p) as E. rewrite E in X. set (N := length (at_place p out)) in *.
  destruct (Nat.lt_trichotomy N n) as [C | [C | C]]; [| exact C |].
  - assert (I : In (Z.of_nat N) (map Z.of_nat (seq 0 N))) by (apply X; lia). apply in_map_iff in I. destruct I as (i & I1 & I2). apply in_seq in I2. lia.
  - assert (I : 0 <= Z.of_nat n < Z.of_nat n) by (apply X, in_map, in_seq; lia). lia.
Qed.

(** A tile with one progression: encoder and decoder go through the same packets
    ([out]); written in any number of tile-parts, they are read back, and every
    code-block of the tile comes out of the block decoder. *)
Theorem c57_tile : forall T o sty roi csty nlay pcs es ds,
  wf T -> order_ok T o -> t_layers T = Z.of_nat nlay -> (nlay <= 999)%nat -> styles_ok sty roi -> tile_prepared sty roi nlay pcs es ds ->
  exists out, encodes T [all_of T o] out /\ decodes T [all_of T o] out /\
  (exists R, forall packno parts, concat (map snd parts) = out -> Forall (fun p => R * Z.of_nat (length (snd p)) <= fst p < 2 ^ 32) parts ->
    exists bufs es', write_parts csty packno (t_layers T) es parts = Some (bufs, es')) /\
  forall packno parts bufs es' rest, concat (map snd parts) = out -> write_parts csty packno (t_layers T) es parts = Some (bufs, es') -> Forall byte_range rest ->
  exists ds', read_packets sty csty (fun _ => true) ds out (concat bufs ++ rest) = Some (ds', rest) /\
    forall l r c k, valid T (l, r, c, k) ->
      all_shown (sty c) (roi c) nlay (pcs (r, c, k)) (ds' (r, c, k)) /\
      (all_complete (sty c) nlay (pcs (r, c, k)) -> all_exact (sty c) (roi c) (pcs (r, c, k)) (ds' (r, c, k))).
Proof.
  intros T o sty roi csty nlay pcs es ds HW HO HN H9 HS HP. destruct (c27_encoder T o HW HO) as (out & E & D).
  destruct (c27_tile T o HW HO) as (out' & D' & O & ND & I). assert (out' = out) as ->.
  { destruct D as (gs & G1 & n0 & D), D' as (gs' & G1' & n0' & D'). assert (gs' = gs) as -> by congruence. specialize (D (Nat.max n0 n0') ltac:(lia)). specialize (D' (Nat.max n0 n0') ltac:(lia)). congruence. }
  exists out. split; [exact E |]. split; [exact D |].
  assert (HT : in_turn out).
  { replace out with ([] ++ concat [out]) by (cbn; apply app_nil_r). eapply (sequence_in_turn T [all_of T o]); [| intros p; reflexivity].
    constructor; [exact O | | constructor]. intros q. rewrite I, all_of_within by exact HW. cbn [In]. tauto. }
  assert (HV : Forall (fun q => 0 <= layer_no q < Z.of_nat nlay) out).
  { apply Forall_forall. intros [[[l r] c] k] Hq. apply I in Hq. unfold valid in Hq. cbn [layer_no]. lia. }
  rewrite HN. split; [exact (c57_succeeds sty roi csty nlay pcs es ds out HS H9 HP HT HV) |].
  intros packno parts bufs es' rest EP HWr Hrest.
  destruct (c57_packets sty roi csty nlay pcs es ds packno parts bufs es' rest HS H9 HP) as (ds' & R & S); try assumption; try (rewrite EP; assumption).
  rewrite EP in R, S. exists ds'. split; [exact R |]. intros l r c k Hv.
  assert (L : length (at_place (r, c, k) out) = nlay) by (apply (placed T out (r, c, k) nlay HT I); [exists l; exact Hv | congruence]).
  assert (X : all_shown (sty c) (roi c) nlay (pcs (r, c, k)) (ds' (r, c, k))).
  { specialize (S (r, c, k)). rewrite L in S. apply S. intros Z0. rewrite Z0 in L. cbn [length] in L. unfold valid in Hv. lia. }
  split; [exact X |]. intros C. exact (all_shown_exact _ _ _ _ _ X C).
Qed.

(** With progression order changes, where no packet is in two volumes and the
    layers do not increase: each precinct as far as it has packets. *)
Theorem c57_progressions : forall T vs sty roi csty nlay pcs es ds,
  wf T -> Forall (fine T) vs -> Forall (fun v => v_lay1 v <= t_layers T) vs -> PiSpec.disjoint T vs -> layers_descend vs ->
  t_layers T = Z.of_nat nlay -> (nlay <= 999)%nat -> styles_ok sty roi -> tile_prepared sty roi nlay pcs es ds ->
  exists out, encodes T vs out /\ decodes T (pocs T vs) out /\
  forall packno parts bufs es' rest, concat (map snd parts) = out -> write_parts csty packno (t_layers T) es parts = Some (bufs, es') -> Forall byte_range rest ->
  exists ds', read_packets sty csty (fun _ => true) ds out (concat bufs ++ rest) = Some (ds', rest) /\
    forall l r c k, In (l, r, c, k) out ->
      all_shown (sty c) (roi c) (length (at_place (r, c, k) out)) (pcs (r, c, k)) (ds' (r, c, k)).
Proof.
  intros T vs sty roi csty nlay pcs es ds HW HF HL HD HS HN H9 HSt HP. destruct (c27_encoder_progressions T vs HW HF HL HD HS) as (out & E & D). exists out. split; [exact E |]. split; [exact D |].
  destruct (c27_progressions T vs HW HF) as (ps & D' & Sq). assert (concat ps = out) as EC.
  { destruct D as (gs & G1 & n0 & D), D' as (gs' & G1' & n0' & D'). assert (gs' = gs) as -> by congruence. specialize (D (Nat.max n0 n0') ltac:(lia)). specialize (D' (Nat.max n0 n0') ltac:(lia)). congruence. }
  assert (HT : in_turn out) by (rewrite <- EC; apply (sequence_in_turn T vs [] ps Sq); intros p; reflexivity).
  destruct (sequence_in T vs [] ps Sq) as [_ I].
  assert (HV : Forall (fun q => 0 <= layer_no q < Z.of_nat nlay) out).
  { apply Forall_forall. intros [[[l r] c] k] Hq. rewrite <- EC in Hq. apply I in Hq. destruct Hq as [Hq _]. apply Exists_exists in Hq. destruct Hq as (v & _ & Hq & _). unfold valid in Hq. cbn [layer_no]. lia. }
  intros packno parts bufs es' rest EP HWr Hrest. rewrite HN in HWr.
  destruct (c57_packets sty roi csty nlay pcs es ds packno parts bufs es' rest HSt H9 HP) as (ds' & R & S); try assumption; try (rewrite EP; assumption).
  rewrite EP in R, S. exists ds'. split; [exact R |]. intros l r c k Hq. apply (S (r, c, k)). intros Z0. assert (X : In (l, r, c, k) (at_place (r, c, k) out)) by (apply in_place; split; [exact Hq | reflexivity]).
  rewrite Z0 in X. exact X.
Qed.

(** ** Examples *)

(** Two blocks of a precinct, three layers; everything between coefficients and
    coefficients is computed. *)
Definition demo_area (cuts : list nat) (rows : list (list Z)) : area :=
  mkArea (Z.of_nat (length (hd [] rows))) (Z.of_nat (length rows)) (T1Props.table rows) 7 0 zeroes cuts.
Definition demo_block (sty orient : Z) (a : area) : option ecblk :=
  match code sty orient a with Some k => Some (coded_block k (a_cuts a)) | None => None end.
Definition demo_rows (sty roi orient : Z) (a : area) (d : dblk) : option (list (list Z)) :=
  match decode_block (a_w a) (a_h a) orient roi sty d with
  | None => None
  | Some v => Some (map (fun y => map (fun x => output roi (v (Z.of_nat y * a_w a + Z.of_nat x))) (seq 0 (Z.to_nat (a_w a)))) (seq 0 (Z.to_nat (a_h a))))
  end.
Definition demo_a : area := demo_area [4; 4; 13]%nat [[5; -3; 0]; [17; 2; -1]].
Definition demo_b : area := demo_area [0; 7; 7]%nat [[0; 0]; [0; 5]; [-6; 0]].
Definition demo_piece : piece := mkPiece 0 9 [demo_a; demo_b].

Definition demo_trip (sty : Z) : option (list (list Z) * list (option (list (list Z)))) :=
  match demo_block sty 0 demo_a, demo_block sty 0 demo_b with
  | Some a, Some b =>
      match encode_layers 6 0 [(0, 100); (1, 100); (2, 100)] [mkEB 9 (demo_tree 2 1) (demo_tree 2 1) [a; b]] with
      | Some (pkts, _) =>
          match decode_layers sty 6 0 [mkDB 9 (demo_tree 2 1) (demo_tree 2 1) [blank_block; blank_block]] (map (fun p => p ++ [1; 2; 3]) pkts) with
          | Some ([d], rests) => Some (rests, map (fun p => demo_rows sty 0 0 (fst p) (snd p)) (combine [demo_a; demo_b] (db_blocks d)))
          | _ => None
          end
      | None => None
      end
  | _, _ => None
  end.

Example c56_example : demo_trip 0 = Some ([[1; 2; 3]; [1; 2; 3]; [1; 2; 3]], [Some [[5; -3; 0]; [17; 2; -1]]; Some [[0; 0]; [0; 5]; [-6; 0]]]) /\ demo_trip 63 = demo_trip 0.
Proof. vm_compute. split; reflexivity. Qed.

(** A tile of two components, two resolutions and two layers, with one block in
    each precinct of the lower resolution and nothing in the higher; the
    packets in two tile-parts. *)
Definition demo_c : area := demo_area [4; 13]%nat [[5; -3; 0]; [17; 2; -1]].
Definition demo_d : area := demo_area [0; 7]%nat [[0; 0; 2]; [0; 5; 3]].
Definition demo_pc (p : place) : list piece :=
  if same_place p (0, 0, 0) then [mkPiece 0 9 [demo_c]] else if same_place p (0, 1, 0) then [mkPiece 0 9 [demo_d]] else [].
Definition demo_es (sty : Z) (p : place) : list eband :=
  map (fun pc => mkEB (pc_planes pc) (demo_tree 1 1) (demo_tree 1 1)
    (map (fun a => match demo_block sty (pc_orient pc) a with Some c => c | None => mkE 0 [] [] 0 0 end) (pc_areas pc))) (demo_pc p).
Definition demo_ds (p : place) : list dband :=
  map (fun pc => mkDB (pc_planes pc) (demo_tree 1 1) (demo_tree 1 1) (map (fun _ => blank_block) (pc_areas pc))) (demo_pc p).
Definition demo_out : list packet := [(0, 0, 0, 0); (0, 0, 1, 0); (0, 1, 0, 0); (0, 1, 1, 0); (1, 0, 0, 0); (1, 0, 1, 0); (1, 1, 0, 0); (1, 1, 1, 0)].

Example c57_example :
  (match write_parts 2 0 2 (demo_es 4) [(200, firstn 5 demo_out); (200, skipn 5 demo_out)] with
   | Some (bufs, _) =>
       match read_packets (fun _ => 4) 2 (fun _ => true) demo_ds demo_out (concat bufs ++ [7; 8]) with
       | Some (ds, rest) =>
           Some (length bufs, rest, map (fun d => map (demo_rows 4 0 0 demo_c) (db_blocks d)) (ds (0, 0, 0)), map (fun d => map (demo_rows 4 0 0 demo_d) (db_blocks d)) (ds (0, 1, 0)))
       | None => None
       end
   | None => None
   end) = Some (2%nat, [7; 8], [[Some [[5; -3; 0]; [17; 2; -1]]]], [[Some [[0; 0; 2]; [0; 5; 3]]]]) /\
  in_turn demo_out.
Proof.
  split; [vm_compute; reflexivity |]. intros p.
  assert (H : forall a, same_place (0, 0, 0) a = true \/ same_place (0, 1, 0) a = true \/ same_place (1, 0, 0) a = true \/ same_place (1, 1, 0) a = true \/ at_place a demo_out = []).
  { intros a. unfold at_place, demo_out, here_at. cbn [filter place_of]. destruct (same_place (0, 0, 0) a); [auto |]. destruct (same_place (0, 1, 0) a); [auto |].
    destruct (same_place (1, 0, 0) a); [auto |]. destruct (same_place (1, 1, 0) a); auto. }
  destruct (H p) as [E | [E | [E | [E | E]]]]; [| | | | rewrite E; reflexivity];
    match type of E with same_place ?q p = true => destruct (same_place_spec q p) as [<- |]; [vm_compute; reflexivity | discriminate] end.
Qed.

Print Assumptions c56_precinct.
Print Assumptions c56_lossless.
Print Assumptions c56_succeeds.
Print Assumptions c57_packets.
Print Assumptions c57_succeeds.
Print Assumptions c57_tile.
Print Assumptions c57_progressions.
