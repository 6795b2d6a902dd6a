(** Properties of the code-block coder, t1.rs. *)

From Coq Require Import ZArith List Lia Bool.
From Verif Require Import Ints I32 Mem MqModel MqProofs MqEnd MqProps T2CodesModel T2PacketModel T1Luts T1Model T1Spec T1Bits T1Rel T1Enc T1Stage T1Dec T1Code T1Block T1Trip T1Total T1Shape.
From Verif Require Import Ints.
Import ListNotations.
Local Open Scope Z_scope.

(** A code-block as the tile coder hands it over: at most 4096 coefficients of a
    reversible band, of at most 25 bits, and a buffer whose byte before the first
    is not 255. *)
Record Fits (w h orient start bits : Z) (x : Z -> Z -> Z) (m : mem) : Prop := mkFits {
  fit_w : 1 <= w; fit_h : 1 <= h; fit_size : w * h <= 4096; fit_orient : 0 <= orient < 4;
  fit_bits : 0 <= bits <= 25;
  fit_x : forall a b, 0 <= a < w -> 0 <= b < h -> Z.abs (x a b) < 2 ^ bits;
  fit_m : forall i, 0 <= m i <= 255;
  fit_start : m (start - 1) <> 255 }.

(** The encoder on coefficients, with six fractional bits (t1.rs:2487-2540). *)
Definition encoded (start w h orient sty : Z) (x : Z -> Z -> Z) (m : mem) : option coded :=
  encode_cblk start w h orient sty (stripe_order w h (scaled x)) m.
(** What the decoder puts into the tile for a value of a reversible band. *)
Definition output (r v : Z) : Z := halved (roi_unshift r v).
(** The bytes of a block as the decoder sees them. *)
Definition stored (k : coded) (mem : Z -> Z) : Prop := forall i, 0 <= i < Z.of_nat (length (k_data k)) -> mem i = nth (Z.to_nat i) (k_data k) 0.
(** The segments: their lengths, and the number of passes each holds. *)
Definition cuts (k : coded) : list (Z * Z) := segments 0 0 (k_rates k) (k_terms k).

(** ** Values *)

Lemma pow25 : forall bits, 0 <= bits <= 25 -> 1 <= 2 ^ bits <= 2 ^ 25.
Proof. intros bits H. split; [pose proof (Z.pow_pos_nonneg 2 bits); lia | apply Z.pow_le_mono_r; lia]. Qed.

Lemma scaled_facts : forall w h orient start bits x m, Fits w h orient start bits x m -> forall a b, 0 <= a < w -> 0 <= b < h ->
  in_i32 (scaled x a b) /\ coded_magnitude (scaled x a b) = Z.abs (x a b) /\ (scaled x a b <? 0) = (x a b <? 0).
Proof.
  intros w h orient start bits x m F a b Ha Hb. pose proof (fit_x _ _ _ _ _ _ _ F a b Ha Hb) as H. pose proof (pow25 bits (fit_bits _ _ _ _ _ _ _ F)) as P.
  assert (E : scaled x a b = x a b * 2 ^ 6).
  { unfold scaled. rewrite Z.shiftl_mul_pow2 by lia. apply i32_id. unfold in_i32. change (2 ^ 6) with 64. lia. }
  unfold in_i32, coded_magnitude. rewrite E. split; [change (2 ^ 6) with 64; lia |]. split.
  - rewrite Z.min_l by (change (2 ^ 6) with 64; lia). rewrite Z.abs_mul. change (Z.abs (2 ^ 6)) with (2 ^ 6). rewrite Z.shiftr_div_pow2 by lia. apply Z.div_mul. lia.
  - change (2 ^ 6) with 64. destruct (Z.ltb_spec (x a b) 0), (Z.ltb_spec (x a b * 64) 0); try reflexivity; lia.
Qed.

Lemma planes_bits : forall w h orient start bits x m, Fits w h orient start bits x m -> planes w h (scaled x) <= bits \/ 2 ^ 31 <= planes w h (scaled x).
Proof.
  intros w h orient start bits x m F. pose proof F as [Hw Hh _ _ Hb Hx _ _].
  destruct (planes_cases w h (scaled x) Hw Hh) as [(P1 & _ & a & b & Ha & Hb' & H) | ([-> | P1] & _)]; [| | lia | lia].
  - intros a b Ha Hb'. apply (scaled_facts _ _ _ _ _ _ _ F a b Ha Hb').
  - left. rewrite (proj1 (proj2 (scaled_facts _ _ _ _ _ _ _ F a b Ha Hb'))) in H. specialize (Hx a b Ha Hb').
    destruct (Z_lt_ge_dec bits (planes w h (scaled x))); [| lia]. assert (2 ^ bits <= 2 ^ (planes w h (scaled x) - 1)) by (apply Z.pow_le_mono_r; lia). lia.
Qed.

(** What comes out for a coefficient known down to plane [q]. *)
Definition rebuilt (c q : Z) : Z := let v := Z.shiftr (Z.abs c) q in if v =? 0 then 0 else Z.sgn c * (v * 2 ^ q + 2 ^ q / 2).

Lemma output_known : forall r c q, 0 <= r < 31 -> 0 <= q -> output r (known_value r (Z.abs c) (c <? 0) q) = rebuilt c q.
Proof.
  intros r c q Hr Hq. unfold known_value, rebuilt. cbv zeta. destruct (Z.eqb_spec (Z.shiftr (Z.abs c) q) 0) as [E | E].
  - unfold output, roi_unshift. destruct (r =? 0); [reflexivity |]. destruct (31 <=? r); [reflexivity |]. cbn [Z.abs].
    destruct (Z.leb_spec (Z.shiftl 1 r) 0) as [C | C]; [| reflexivity]. rewrite Z.shiftl_mul_pow2 in C by lia. pose proof (Z.pow_pos_nonneg 2 r). lia.
  - assert (Hc : 0 <= Z.shiftr (Z.abs c) q) by (apply Z.shiftr_nonneg; lia). set (v := Z.shiftr (Z.abs c) q) in *.
    assert (Hc0 : c <> 0). { intros ->. apply E. unfold v. cbn [Z.abs]. apply Z.shiftr_0_l. }
    assert (P : 0 < 2 ^ q) by (apply Z.pow_pos_nonneg; lia). assert (P1 : 0 < 2 ^ r) by (apply Z.pow_pos_nonneg; lia).
    rewrite Z.pow_add_r by lia. change (2 ^ 1) with 2.
    set (M := v * (2 ^ q * 2) + 2 ^ q). assert (HM : 0 < M) by (unfold M; nia).
    assert (E2 : Z.quot M 2 = v * 2 ^ q + 2 ^ q / 2).
    { rewrite Z.quot_div_nonneg by lia. unfold M. replace (v * (2 ^ q * 2) + 2 ^ q) with (2 ^ q + v * 2 ^ q * 2) by ring. rewrite Z.div_add by lia. lia. }
    assert (X : forall sg, sg = 1 \/ sg = -1 -> output r (sg * (M * 2 ^ r)) = sg * Z.quot M 2).
    { intros sg Hs. unfold output. assert (Eu : roi_unshift r (sg * (M * 2 ^ r)) = sg * M).
      { unfold roi_unshift. destruct (Z.eqb_spec r 0) as [-> | R0]; [change (2 ^ 0) with 1; lia |]. destruct (Z.leb_spec 31 r); [lia |].
        assert (EA : Z.abs (sg * (M * 2 ^ r)) = M * 2 ^ r) by (rewrite Z.abs_mul, (Z.abs_eq (M * 2 ^ r)) by nia; destruct Hs; subst sg; cbn [Z.abs]; lia). rewrite EA.
        rewrite Z.shiftl_mul_pow2, Z.shiftr_div_pow2, Z.div_mul by lia. destruct (Z.leb_spec (1 * 2 ^ r) (M * 2 ^ r)); [| nia].
        destruct (Z.ltb_spec (sg * (M * 2 ^ r)) 0); destruct Hs; subst sg; clearbody M; clear - HM P1 H1; nia. }
      rewrite Eu. unfold halved. destruct Hs; subst sg; [rewrite !Z.mul_1_l; reflexivity |]. replace (-1 * M) with (- M) by lia. rewrite Z.quot_opp_l by lia. lia. }
    destruct (Z.ltb_spec c 0).
    + rewrite X by (right; reflexivity). rewrite E2. rewrite Z.sgn_neg by lia. reflexivity.
    + rewrite X by (left; reflexivity). rewrite E2. rewrite Z.sgn_pos by lia. reflexivity.
Qed.

Lemma rebuilt_all : forall c, rebuilt c 0 = c.
Proof.
  intros c. unfold rebuilt. cbv zeta. rewrite Z.shiftr_0_r. change (2 ^ 0 / 2) with 0. change (2 ^ 0) with 1.
  destruct (Z.eqb_spec (Z.abs c) 0); [lia |]. rewrite Z.mul_1_r, Z.add_0_r. rewrite Z.mul_comm. apply Z.abs_sgn.
Qed.
Lemma rebuilt_near : forall c q, 0 <= q -> Z.abs (rebuilt c q - c) < 2 ^ q /\ (rebuilt c q = 0 \/ Z.sgn (rebuilt c q) = Z.sgn c).
Proof.
  intros c q Hq. unfold rebuilt. cbv zeta. assert (P : 0 < 2 ^ q) by (apply Z.pow_pos_nonneg; lia). rewrite Z.shiftr_div_pow2 by lia.
  pose proof (Z.div_mod (Z.abs c) (2 ^ q) ltac:(lia)) as D. pose proof (Z.mod_pos_bound (Z.abs c) (2 ^ q) P) as R. set (v := Z.abs c / 2 ^ q) in *.
  assert (H2 : 0 <= 2 ^ q / 2 < 2 ^ q) by (split; [apply Z.div_pos; lia | apply Z.div_lt; lia]).
  destruct (Z.eqb_spec v 0) as [E | E]; [rewrite E in D; split; [lia | left; reflexivity] |].
  assert (Hv : 1 <= v) by (assert (0 <= v) by (apply Z.div_pos; lia); lia). set (u := v * 2 ^ q + 2 ^ q / 2). assert (Hu : 0 < u) by (unfold u; nia).
  assert (Z.abs (u - Z.abs c) < 2 ^ q) by (unfold u; lia).
  destruct (Z.lt_trichotomy c 0) as [C | [C | C]]; [rewrite Z.sgn_neg by exact C | subst c; cbn [Z.abs] in D; nia | rewrite Z.sgn_pos by exact C]; split; try lia; right; lia.
Qed.

Lemma numbps_small : forall start w h orient sty bits x m k r, Fits w h orient start bits x m -> encoded start w h orient sty x m = Some k -> 0 <= r -> r + bits <= 30 ->
  r + (if k_numbps k <? 2 ^ 31 then k_numbps k else 0) <= 30.
Proof.
  intros start w h orient sty bits x m k r F E Hr Hrb. pose proof F as [Hw Hh Hs Ho Hb Hx Hm Hst].
  assert (Hi : forall a b, 0 <= a < w -> 0 <= b < h -> in_i32 (scaled x a b)) by (intros a b Ha Hb'; apply (scaled_facts _ _ _ _ _ _ _ F a b Ha Hb')).
  unfold encoded in E. destruct (planes_cases w h (scaled x) Hw Hh Hi) as [(P1 & _) | (P1 & _)].
  - destruct (encode_shape start w h orient sty (scaled x) m Hw Hh Hs Ho Hi Hm Hst P1) as (K & _ & E'). cbv zeta in E'. rewrite E in E'.
    destruct (trim_rates _ _); [| discriminate]. assert (N : k_numbps k = planes w h (scaled x)) by (injection E'; intros ->; reflexivity).
    rewrite N. destruct (planes_bits _ _ _ _ _ _ _ F) as [P | P]; destruct (Z.ltb_spec (planes w h (scaled x)) (2 ^ 31)); lia.
  - destruct (encode_nothing start w h orient sty (scaled x) m Hw Hh Hi Hst) as (N & E' & HN); [lia |]. rewrite E in E'.
    assert (EN : k_numbps k = N) by (injection E'; intros ->; reflexivity). rewrite EN. destruct (Z.ltb_spec N (2 ^ 31)); lia.
Qed.

(** The bytes of the first [j] segments of a block as the decoder sees them;
    the others need not be there. *)
Definition held (k : coded) (j : nat) (mem : Z -> Z) : Prop :=
  forall i, 0 <= i < fold_right (fun c n => fst c + n) 0 (firstn j (cuts k)) -> mem i = nth (Z.to_nat i) (k_data k) 0.

Lemma passes_le : forall rates terms prev n j, 0 <= n -> passes_of (firstn j (segments prev n rates terms)) <= n + Z.of_nat (length rates).
Proof.
  induction rates as [| r rates IH]; intros terms prev n j Hn; [cbn [segments]; rewrite firstn_nil; cbn; lia |]. destruct terms as [| t terms]; [cbn [segments]; rewrite firstn_nil; cbn [passes_of fold_right]; lia |].
  cbn [segments length]. destruct t.
  - destruct j as [| j]; [cbn [firstn passes_of fold_right]; lia |]. cbn [firstn]. unfold passes_of in *. cbn [fold_right snd]. specialize (IH terms r 0 j ltac:(lia)). lia.
  - specialize (IH terms prev (n + 1) j ltac:(lia)). lia.
Qed.

Lemma trip : forall start w h orient sty bits x m r, Fits w h orient start bits x m -> 0 <= r -> r + bits <= 30 -> r = 0 \/ Z.land sty CBLKSTY_LAZY = 0 ->
  exists k, encoded start w h orient sty x m = Some k /\ forall j mem, held k j mem ->
    let left := Z.of_nat (length (k_rates k)) - passes_of (firstn j (cuts k)) in
    exists v, decode_cblk w h orient r sty (k_numbps k) true (firstn j (cuts k)) mem = Some v /\
      bytes_of (firstn j (cuts k)) <= Z.of_nat (length (k_data k)) /\ 0 <= left /\ ((length (cuts k) <= j)%nat -> left = 0) /\
      forall a b, 0 <= a < w -> 0 <= b < h -> exists q, 0 <= q /\ plane_known left q /\ output r (v (b * w + a)) = rebuilt (x a b) q.
Proof.
  intros start w h orient sty bits x m r F Hr Hrb Hraw. pose proof F as [Hw Hh Hs Ho Hb Hx Hm Hst].
  assert (Hi : forall a b, 0 <= a < w -> 0 <= b < h -> in_i32 (scaled x a b)) by (intros a b Ha Hb'; apply (scaled_facts _ _ _ _ _ _ _ F a b Ha Hb')).
  destruct (encode_total start w h orient sty (scaled x) m Hw Hh Hs Ho Hi Hm Hst) as [k E]. exists k. split; [exact E |]. intros j mem Hmem lf.
  assert (Hl : r = 0 \/ styled sty CBLKSTY_LAZY = false) by (destruct Hraw as [H | H]; [left; exact H | right; unfold styled; rewrite H; reflexivity]).
  assert (Hn : r + (if k_numbps k <? 2 ^ 31 then k_numbps k else 0) <= 30) by (apply (numbps_small start w h orient sty bits x m k r F E Hr Hrb)).
  destruct (block_trip start w h orient sty (scaled x) m k r mem j Hw Hh Hs Ho Hi Hm Hst E Hr Hl Hn Hmem) as (v & D & Db & L & V).
  assert (H0 : 0 <= lf) by (pose proof (passes_le (k_rates k) (k_terms k) 0 0 j ltac:(lia)); unfold lf, cuts; lia).
  exists v. split; [exact D |]. split; [exact Db |]. split; [exact H0 |]. split; [exact L |]. intros a b Ha Hb'. destruct (V a b Ha Hb') as (q & Q & ->).
  exists q. assert (Hq : 0 <= q).
  { fold (cuts k) in Q. fold lf in Q. destruct Q as [Q1 Q2]. destruct (Z.eq_dec lf 0) as [Z0 | Z0]; [rewrite Z0 in Q2; rewrite (Q2 eq_refl); cbn; lia |]. assert (1 <= (lf + 2) / 3) by (apply Z.div_le_lower_bound; lia). lia. }
  split; [exact Hq |]. split; [exact Q |].
  destruct (scaled_facts _ _ _ _ _ _ _ F a b Ha Hb') as (_ & -> & ->). apply output_known; lia.
Qed.

Lemma held_all : forall k j mem, stored k mem -> bytes_of (firstn j (cuts k)) <= Z.of_nat (length (k_data k)) -> held k j mem.
Proof. intros k j mem H L i Hi. apply H. unfold bytes_of in L. lia. Qed.

(** ** C36: the round trip *)

Theorem c36_round_trip : forall start w h orient sty bits x m r,
  Fits w h orient start bits x m -> 0 <= r -> r + bits <= 30 -> r = 0 \/ Z.land sty CBLKSTY_LAZY = 0 ->
  exists k, encoded start w h orient sty x m = Some k /\
    forall mem, stored k mem -> exists v, decode_cblk w h orient r sty (k_numbps k) true (cuts k) mem = Some v /\
      forall a b, 0 <= a < w -> 0 <= b < h -> output r (v (b * w + a)) = x a b.
Proof.
  intros start w h orient sty bits x m r F Hr Hrb Hraw. destruct (trip start w h orient sty bits x m r F Hr Hrb Hraw) as (k & E & T). exists k. split; [exact E |]. intros mem Hmem.
  assert (Db : bytes_of (firstn (length (cuts k)) (cuts k)) <= Z.of_nat (length (k_data k))).
  { destruct (T (length (cuts k)) (fun i => nth (Z.to_nat i) (k_data k) 0) (fun i _ => eq_refl)) as (_ & _ & Db & _). exact Db. }
  destruct (T (length (cuts k)) mem (held_all k _ mem Hmem Db)) as (v & D & _ & _ & L & V). rewrite firstn_all in D, L, V.
  exists v. split; [exact D |]. intros a b Ha Hb. destruct (V a b Ha Hb) as (q & Hq & [_ Q] & ->). rewrite (L (le_n _)) in Q. rewrite (Q eq_refl). apply rebuilt_all.
Qed.

(** Rows of a block as a function. *)
Definition table (rows : list (list Z)) : Z -> Z -> Z := fun a b => nth (Z.to_nat a) (nth (Z.to_nat b) rows []) 0.
Definition zeroes : mem := fun _ => 0.
(** Encoding and decoding a whole block, or [c] of its segments. *)
Definition there_and_back (w h orient r sty : Z) (x : Z -> Z -> Z) (c : option (list (Z * Z))) : option (list (list Z)) :=
  match encoded 0 w h orient sty x zeroes with
  | Some k => match decode_cblk w h orient r sty (k_numbps k) true (match c with Some c => c | None => cuts k end) (fun i => nth (Z.to_nat i) (k_data k) 0) with
              | Some v => Some (map (fun b => map (fun a => output r (v (b * w + a))) (upto w)) (upto h))
              | None => None
              end
  | None => None
  end.

Example c36_example : there_and_back 5 6 1 0 0x3F (table [[0;3;-90;0;1]; [5;-6;7;-800;9]; [0;0;0;0;0]; [1;0;0;-1;70000]; [-3;2;1;0;12]; [6;6;-6;0;0]]) None =
  Some [[0;3;-90;0;1]; [5;-6;7;-800;9]; [0;0;0;0;0]; [1;0;0;-1;70000]; [-3;2;1;0;12]; [6;6;-6;0;0]].
Proof. vm_compute. reflexivity. Qed.
Example c36_roi_example : there_and_back 2 5 3 7 0 (table [[0;3]; [-900;0]; [1;5]; [-6;7]; [-80;9]]) None = Some [[0;3]; [-900;0]; [1;5]; [-6;7]; [-80;9]].
Proof. vm_compute. reflexivity. Qed.

(** With a region of interest and selective bypass the decoder takes the shifted
    bit-planes into account when it looks for the raw passes, and the encoder
    does not. *)
Theorem c36_roi_lazy_refuted : exists start w h orient sty bits x m r,
  Fits w h orient start bits x m /\ 0 <= r /\ r + bits <= 30 /\
  exists k v a b, encoded start w h orient sty x m = Some k /\ 0 <= a < w /\ 0 <= b < h /\
    decode_cblk w h orient r sty (k_numbps k) true (cuts k) (fun i => nth (Z.to_nat i) (k_data k) 0) = Some v /\ output r (v (b * w + a)) <> x a b.
Proof.
  exists 0, 1, 1, 0, 1, 7, (table [[77]]), zeroes, 1. split.
  { split; try lia; [| unfold zeroes; lia | unfold zeroes; lia]. intros a b Ha Hb. assert (a = 0) by lia. assert (b = 0) by lia. subst. cbn. lia. }
  split; [lia |]. split; [lia |].
  assert (X : there_and_back 1 1 0 1 1 (table [[77]]) None = Some [[73]]) by (vm_compute; reflexivity). revert X. unfold there_and_back.
  destruct (encoded 0 1 1 0 1 (table [[77]]) zeroes) as [k |]; [| discriminate].
  destruct (decode_cblk 1 1 0 1 1 (k_numbps k) true (cuts k) (fun i => nth (Z.to_nat i) (k_data k) 0)) as [v |] eqn:D; [| discriminate].
  intros X. exists k, v, 0, 0. split; [reflexivity |]. split; [lia |]. split; [lia |]. split; [exact D |].
  assert (X' : output 1 (v (0 * 1 + 0)) = 73) by (injection X; intros X'; exact X'). rewrite X'. discriminate.
Qed.
Example c36_roi_lazy_example : there_and_back 1 1 0 2 1 (table [[700]]) None = Some [[684]].
Proof. vm_compute. reflexivity. Qed.

(** ** C46: truncated blocks *)

(** The first [j] segments are enough to know each coefficient but for the
    bit-planes of the passes left out. *)
Theorem c46_truncated : forall start w h orient sty bits x m r,
  Fits w h orient start bits x m -> 0 <= r -> r + bits <= 30 -> r = 0 \/ Z.land sty CBLKSTY_LAZY = 0 ->
  exists k, encoded start w h orient sty x m = Some k /\
    forall j mem, held k j mem ->
    let left := Z.of_nat (length (k_rates k)) - fold_right (fun c n => snd c + n) 0 (firstn j (cuts k)) in
    0 <= left /\ fold_right (fun c n => fst c + n) 0 (firstn j (cuts k)) <= Z.of_nat (length (k_data k)) /\
    exists v, decode_cblk w h orient r sty (k_numbps k) true (firstn j (cuts k)) mem = Some v /\
      forall a b, 0 <= a < w -> 0 <= b < h ->
        Z.abs (output r (v (b * w + a)) - x a b) < 2 ^ ((left + 2) / 3) /\
        (output r (v (b * w + a)) = 0 \/ Z.sgn (output r (v (b * w + a))) = Z.sgn (x a b)) /\
        exists q, (left + 2) / 3 - 1 <= q <= (left + 2) / 3 /\ output r (v (b * w + a)) = rebuilt (x a b) q.
Proof.
  intros start w h orient sty bits x m r F Hr Hrb Hraw. destruct (trip start w h orient sty bits x m r F Hr Hrb Hraw) as (k & E & T). exists k. split; [exact E |].
  intros j mem Hmem lf. destruct (T j mem Hmem) as (v & D & Db & L0 & _ & V). fold (passes_of (firstn j (cuts k))) in lf. fold lf in V, L0.
  split; [exact L0 |]. split; [exact Db |]. exists v. split; [exact D |].
  intros a b Ha Hb. destruct (V a b Ha Hb) as (q & Hq & [Q _] & ->). destruct (rebuilt_near (x a b) q Hq) as [N1 N2]. split; [| split; [exact N2 |]].
  - assert (2 ^ q <= 2 ^ ((lf + 2) / 3)) by (apply Z.pow_le_mono_r; lia). lia.
  - exists q. split; [exact Q | reflexivity].
Qed.

(** The first nine of 27 segments have 22 of the 49 passes, so 27 passes
    are left out. *)
Example c46_example :
  let x := table [[100000; -31; 5]; [-70000; 64; -1]] in
  match encoded 0 3 2 0 1 x zeroes with
  | Some k => (length (k_rates k), length (cuts k), firstn 9 (cuts k), there_and_back 3 2 0 0 1 x (Some (firstn 9 (cuts k)))) =
     (49%nat, 27%nat, [(2, 10); (1, 2); (2, 1); (1, 2); (2, 1); (1, 2); (2, 1); (1, 2); (2, 1)], Some [[100096; 0; 0]; [-69888; 0; 0]])
  | None => False
  end.
Proof. vm_compute. reflexivity. Qed.

(** The rate the encoder gives a pass that is not terminated promises too much:
    that many bytes need not be enough to decode the passes up to it as they
    decode with all bytes there. *)
Theorem c46_rates_refuted : exists w h orient x k i v v' a b,
  Fits w h orient 0 5 x zeroes /\ encoded 0 w h orient 0 x zeroes = Some k /\
  0 <= i < Z.of_nat (length (k_rates k)) /\ 0 <= a < w /\ 0 <= b < h /\
  let mem := fun n => nth (Z.to_nat n) (k_data k) 0 in
  decode_cblk w h orient 0 0 (k_numbps k) true [(nth (Z.to_nat i) (k_rates k) 0, i + 1)] mem = Some v /\
  decode_cblk w h orient 0 0 (k_numbps k) true [(Z.of_nat (length (k_data k)), i + 1)] mem = Some v' /\
  output 0 (v (b * w + a)) <> output 0 (v' (b * w + a)).
Proof.
  exists 1, 3, 0, (table [[-17]; [-8]; [-30]]).
  assert (X : match encoded 0 1 3 0 0 (table [[-17]; [-8]; [-30]]) zeroes with
              | Some k => let mem := fun n => nth (Z.to_nat n) (k_data k) 0 in
                 (length (k_rates k), option_map (fun v : Z -> Z => output 0 (v (2 * 1 + 0))) (decode_cblk 1 3 0 0 0 (k_numbps k) true [(nth (Z.to_nat 5) (k_rates k) 0, 5 + 1)] mem),
                  option_map (fun v : Z -> Z => output 0 (v (2 * 1 + 0))) (decode_cblk 1 3 0 0 0 (k_numbps k) true [(Z.of_nat (length (k_data k)), 5 + 1)] mem))
              | None => (0%nat, None, None) end = (13%nat, Some (-26), Some (-30))) by (vm_compute; reflexivity).
  revert X. destruct (encoded 0 1 3 0 0 (table [[-17]; [-8]; [-30]]) zeroes) as [k |]; [| discriminate]. cbv zeta.
  set (mem := fun n => nth (Z.to_nat n) (k_data k) 0).
  destruct (decode_cblk 1 3 0 0 0 (k_numbps k) true [(nth (Z.to_nat 5) (k_rates k) 0, 5 + 1)] mem) as [v |] eqn:D1; [| discriminate].
  destruct (decode_cblk 1 3 0 0 0 (k_numbps k) true [(Z.of_nat (length (k_data k)), 5 + 1)] mem) as [v' |] eqn:D2; [| discriminate].
  cbn [option_map]. intros X. assert (X1 : length (k_rates k) = 13%nat /\ output 0 (v (2 * 1 + 0)) = -26 /\ output 0 (v' (2 * 1 + 0)) = -30).
  { injection X. intros A1 A2 A3. split; [exact A3 | split; [exact A2 | exact A1]]. }
  destruct X1 as (X1 & X2 & X3). exists k, 5, v, v', 0, 2. split.
  { clear. split; try lia; [| unfold zeroes; lia | unfold zeroes; lia]. intros a b Ha Hb. assert (a = 0) by lia. assert (b = 0 \/ b = 1 \/ b = 2) as [-> | [-> | ->]] by lia; subst a; vm_compute; reflexivity. }
  split; [reflexivity |]. rewrite X1. split; [lia |]. split; [lia |]. split; [lia |]. cbv zeta. fold mem. split; [exact D1 |]. split; [exact D2 |]. rewrite X2, X3. lia.
Qed.

(** ** C47: the standard's code *)

(** The bits a block codes, after Annex D: [n] is the number of bit-planes. *)
Definition standard (w h orient sty : Z) (x : Z -> Z -> Z) : block :=
  mkBlock w h orient (negb (Z.land sty 8 =? 0)) (fun a b => Z.abs (x a b)) (fun a b => x a b <? 0).
Definition bit_planes (w h : Z) (x : Z -> Z -> Z) (n : Z) : Prop :=
  0 <= n /\ (forall a b, 0 <= a < w -> 0 <= b < h -> Z.abs (x a b) < 2 ^ n) /\
  (n = 0 \/ exists a b, 0 <= a < w /\ 0 <= b < h /\ 2 ^ (n - 1) <= Z.abs (x a b)).

Lemma planes_is : forall w h orient start bits x m n, Fits w h orient start bits x m -> bit_planes w h x n -> planes w h (scaled x) = n /\ n <= 25.
Proof.
  intros w h orient start bits x m n F (N0 & N1 & N2). pose proof F as [Hw Hh _ _ Hb Hx _ _].
  assert (Hi : forall a b, 0 <= a < w -> 0 <= b < h -> in_i32 (scaled x a b)) by (intros a b Ha Hb'; apply (scaled_facts _ _ _ _ _ _ _ F a b Ha Hb')).
  assert (Hn : n <= bits). { destruct N2 as [-> | (a & b & Ha & Hb' & H)]; [lia |]. specialize (Hx a b Ha Hb'). destruct (Z_le_gt_dec n bits); [assumption |]. assert (2 ^ bits <= 2 ^ (n - 1)) by (apply Z.pow_le_mono_r; lia). lia. }
  split; [| lia].
  destruct (planes_cases w h (scaled x) Hw Hh Hi) as [(P1 & P2 & a & b & Ha & Hb' & H) | (P1 & P2)].
  - rewrite (proj1 (proj2 (scaled_facts _ _ _ _ _ _ _ F a b Ha Hb'))) in H. specialize (N1 a b Ha Hb'). set (p := planes w h (scaled x)) in *. clearbody p.
    destruct (Z_lt_ge_dec n p) as [L | L]; [assert (2 ^ n <= 2 ^ (p - 1)) by (apply Z.pow_le_mono_r; lia); lia |].
    destruct (Z.eq_dec n p) as [| Ne]; [lia |]. destruct N2 as [-> | (c & d & Hc & Hd & H')]; [lia |]. specialize (P2 c d Hc Hd). rewrite (proj1 (proj2 (scaled_facts _ _ _ _ _ _ _ F c d Hc Hd))) in P2.
    assert (2 ^ p <= 2 ^ (n - 1)) by (apply Z.pow_le_mono_r; lia). lia.
  - assert (n = 0). { destruct N2 as [-> | (c & d & Hc & Hd & H')]; [reflexivity |]. specialize (P2 c d Hc Hd). rewrite (proj1 (proj2 (scaled_facts _ _ _ _ _ _ _ F c d Hc Hd))) in P2.
      destruct (Z.eq_dec n 0); [assumption |]. assert (0 < 2 ^ (n - 1)) by (apply Z.pow_pos_nonneg; lia). lia. }
    subst n. unfold planes, enc_numbps. assert (M : max_abs (w * h) (stripe_order w h (scaled x)) = 0); [| rewrite M; reflexivity].
    destruct (Z.eq_dec (max_abs (w * h) (stripe_order w h (scaled x))) 0) as [| MX]; [assumption |].
    destruct (mx_hit w h (scaled x) Hw Hh Hi MX) as (i & j & A1 & A2 & A3). specialize (N1 i j A1 A2). change (2 ^ 0) with 1 in N1. assert (X0 : x i j = 0) by lia. rewrite <- A3. unfold scaled. rewrite X0. reflexivity.
Qed.

(** The bytes of a block, segment by segment, are read by the MQ decoder (or
    the raw one) as the passes of the standard, whatever else is in memory. *)
Theorem c47_annex_d : forall start w h orient sty bits x m n,
  Fits w h orient start bits x m -> bit_planes w h x n ->
  exists k, encoded start w h orient sty x m = Some k /\ k_numbps k = n /\
    let passes := block_passes (standard w h orient sty x) sty n in
    length (k_rates k) = length passes /\ k_terms k = map (fun P => snd (fst P)) passes /\
    readable (negb (Z.land sty 2 =? 0)) (fun i => nth (Z.to_nat i) (k_data k) 0) 0 reset_ctxs (groups [] passes) (cuts k).
Proof.
  intros start w h orient sty bits x m n F Hn. pose proof F as [Hw Hh Hs Ho Hb Hx Hm Hst]. destruct (planes_is _ _ _ _ _ _ _ _ F Hn) as [Pn Pn'].
  assert (Hi : forall a b, 0 <= a < w -> 0 <= b < h -> in_i32 (scaled x a b)) by (intros a b Ha Hb'; apply (scaled_facts _ _ _ _ _ _ _ F a b Ha Hb')).
  assert (Ep : block_passes (standard w h orient sty x) sty n = block_passes (block_of w h orient sty (scaled x)) sty n).
  { unfold block_passes. apply passes_alike; try reflexivity. intros a b I. apply inside_bounds in I. cbn [block_of width height] in I. cbn [standard block_of magnitude negative].
    destruct (scaled_facts _ _ _ _ _ _ _ F a b ltac:(lia) ltac:(lia)) as (_ & -> & ->). split; reflexivity. }
  destruct (Z_le_gt_dec 1 n) as [L | L].
  - destruct (block_shape start w h orient sty (scaled x) m Hw Hh Hs Ho Hi Hm Hst ltac:(lia) ltac:(lia)) as (k & E & K1 & K2 & K3 & K4 & _). rewrite Pn in K1, K2, K3, K4. rewrite Ep.
    exists k. split; [exact E |]. split; [exact K1 |]. split; [exact K3 |]. split; [exact K2 | exact K4].
  - destruct (encode_nothing start w h orient sty (scaled x) m Hw Hh Hi Hst) as (N & E' & HN); [lia |]. exists (mkCoded N [] [] []). split; [exact E' |].
    assert (N0 : n = 0) by (destruct Hn; lia). rewrite N0 in *.
    assert (E0 : encode_cblk start w h orient sty (stripe_order w h (scaled x)) m = Some (mkCoded 0 [] [] [])) by (unfold encode_cblk; fold (planes w h (scaled x)); rewrite Pn; reflexivity).
    rewrite E0 in E'. assert (N = 0) by (injection E'; intros; congruence). subst N. split; [reflexivity |]. cbn. auto.
Qed.

(** One coefficient, -1: the clean-up pass codes its significance in context 0
    and its sign in context 9. *)
Example c47_example : block_passes (standard 1 1 0 0 (table [[-1]])) 0 1 = [(false, true, [(0, 1); (9, 1)])].
Proof. vm_compute. reflexivity. Qed.
(** A run of four zeroes in the first stripe, one that ends at its third row in
    the second column, and a segmentation symbol. *)
Example c47_run_example : block_passes (standard 2 4 0 32 (table [[0; 0]; [0; 0]; [0; 1]; [0; 0]])) 32 1 =
  [(false, true, [(17, 0); (17, 1); (18, 1); (18, 0); (9, 0); (3, 0); (18, 1); (18, 0); (18, 1); (18, 0)])].
Proof. vm_compute. reflexivity. Qed.
Example c47_lazy_example : map (fun P => fst P) (block_passes (standard 1 1 0 1 (table [[64]])) 1 7) =
  [(false, false); (false, false); (false, false); (false, false); (false, false); (false, false); (false, false); (false, false); (false, false); (false, true);
   (true, false); (true, true); (false, true); (true, false); (true, true); (false, true); (true, false); (true, true); (false, true)].
Proof. vm_compute. reflexivity. Qed.

(** ** C48: the encoder does not fail *)

(** Neither the assertion that every pass has bytes nor that the coder's byte
    before the first is not 255 fails, for any coefficients at all; what comes
    out is in order. *)
Theorem c48_total : forall start w h orient sty x m,
  1 <= w -> 1 <= h -> w * h <= 4096 -> 0 <= orient < 4 -> (forall a b, 0 <= a < w -> 0 <= b < h -> - 2 ^ 31 <= x a b < 2 ^ 31) ->
  (forall i, 0 <= m i <= 255) -> m (start - 1) <> 255 ->
  exists k, encode_cblk start w h orient sty (stripe_order w h x) m = Some k /\
    length (k_terms k) = length (k_rates k) /\ (length (k_rates k) <= 73)%nat /\
    (forall i j, (i <= j < length (k_rates k))%nat -> 0 <= nth i (k_rates k) 0 <= nth j (k_rates k) 0) /\
    last (k_rates k) 0 = Z.of_nat (length (k_data k)) /\
    (forall i, (i < length (k_rates k))%nat -> nth i (k_rates k) 0 = 0 \/ nth (Z.to_nat (nth i (k_rates k) 0 - 1)) (k_data k) 0 <> 255) /\
    Forall (fun b => 0 <= b <= 255) (k_data k) /\
    (forall i, nth i (k_data k) 0 = 255 -> nth (S i) (k_data k) 0 <= 0x8F) /\ last (k_data k) 0 <> 255.
Proof.
  intros start w h orient sty x m Hw Hh Hs Ho Hx Hm Hst.
  assert (Hi : forall a b, 0 <= a < w -> 0 <= b < h -> in_i32 (x a b)) by (intros a b Ha Hb; exact (Hx a b Ha Hb)).
  destruct (planes_cases w h x Hw Hh Hi) as [(P1 & _) | (P1 & _)].
  - destruct (block_shape start w h orient sty x m Hw Hh Hs Ho Hi Hm Hst ltac:(lia) ltac:(lia)) as (k & E & _ & K2 & K3 & _ & K5 & K6 & K7 & K8 & K9 & K10).
    exists k. split; [exact E |]. split; [rewrite K2, map_length; lia |]. split; [rewrite K3; unfold block_passes; rewrite passes_count; lia |].
    split; [intros i j Hij; apply (K5 i j Hij) |]. split; [exact K6 |]. split; [exact K7 |]. split; [exact K8 |]. split; [exact K9 | exact K10].
  - destruct (encode_nothing start w h orient sty x m Hw Hh Hi Hst) as (N & E & _); [lia |]. exists (mkCoded N [] [] []). split; [exact E |]. cbn [k_rates k_terms k_data].
    split; [reflexivity |]. split; [cbn; lia |]. split; [intros i j Hij; cbn in Hij; lia |]. split; [reflexivity |]. split; [intros i Hij; cbn in Hij; lia |]. split; [constructor |].
    split; [intros [| i] C; cbn in C; lia | cbn; lia].
Qed.

Example c48_example : option_map k_rates (encoded 0 2 2 0 4 (table [[3; -1]; [0; 2]]) zeroes) = Some [2; 3; 4; 6].
Proof. vm_compute. reflexivity. Qed.

(** ** C49: the code-block's buffer *)

(** tcd.rs:1433-1437: the bytes allocated for a block. *)
Definition data_size (w h : Z) : Z := 74 + w * h * 4.

(** The encoder writes through a pointer without asking for the size, and a
    block can take more than that. *)
Theorem c49_buffer_refuted : exists w h orient sty bits x k,
  Fits w h orient 0 bits x zeroes /\ encoded 0 w h orient sty x zeroes = Some k /\ data_size w h < Z.of_nat (length (k_data k)).
Proof.
  exists 1, 1, 0, 4, 15, (table [[2 ^ 14]]).
  assert (X : match encoded 0 1 1 0 4 (table [[2 ^ 14]]) zeroes with Some k => length (k_data k) | None => 0%nat end = 83%nat) by (vm_compute; reflexivity).
  revert X. destruct (encoded 0 1 1 0 4 (table [[2 ^ 14]]) zeroes) as [k |]; [| discriminate]. intros X. exists k. split; [| split; [reflexivity | rewrite X; vm_compute; reflexivity]].
  clear. split; try lia; [| unfold zeroes; lia | unfold zeroes; lia]. intros a b Ha Hb. assert (a = 0) by lia. assert (b = 0) by lia. subst a b. vm_compute. reflexivity.
Qed.

(** ** C50: regions of interest *)

(** Annex H.1: with a shift of [s], a coefficient of at least 2^s belongs to the
    region and is shifted back; a smaller one is background and stays. *)
Definition max_shift (s c : Z) : Z := if 2 ^ s <=? Z.abs c then Z.sgn c * (Z.abs c / 2 ^ s) else c.

(** A fully decoded coefficient [c] is held as twice its magnitude and a half
    unit (t1.rs:1930-1960). *)
Definition decoded (c : Z) : Z := known_value 0 (Z.abs c) (c <? 0) 0.

Lemma decoded_is : forall c, decoded c = if c =? 0 then 0 else Z.sgn c * (2 * Z.abs c + 1).
Proof.
  intros c. unfold decoded, known_value. cbv zeta. rewrite Z.shiftr_0_r. change (2 ^ (0 + 1)) with 2. change (2 ^ 0) with 1.
  destruct (Z.eqb_spec (Z.abs c) 0), (Z.eqb_spec c 0); try lia. destruct (Z.ltb_spec c 0); [rewrite Z.sgn_neg by lia | rewrite Z.sgn_pos by lia]; lia.
Qed.
Lemma output_decoded : forall s c, 0 < s < 31 -> c <> 0 ->
  output s (decoded c) = if 2 ^ s <=? 2 * Z.abs c + 1 then Z.sgn c * ((2 * Z.abs c + 1) / 2 ^ s / 2) else c.
Proof.
  intros s c Hs Hc. rewrite decoded_is. destruct (Z.eqb_spec c 0); [contradiction |]. set (M := 2 * Z.abs c + 1). assert (HM : 3 <= M) by (unfold M; lia).
  assert (P : 0 < 2 ^ s) by (apply Z.pow_pos_nonneg; lia). unfold output, roi_unshift. destruct (Z.eqb_spec s 0); [lia |]. destruct (Z.leb_spec 31 s); [lia |].
  assert (EA : Z.abs (Z.sgn c * M) = M) by (rewrite Z.abs_mul; destruct (Z.lt_trichotomy c 0) as [C | [C | C]]; [rewrite Z.sgn_neg by lia | lia | rewrite Z.sgn_pos by lia]; cbn [Z.abs]; lia).
  rewrite EA, Z.shiftl_mul_pow2, Z.mul_1_l, Z.shiftr_div_pow2 by lia. assert (D : 0 <= M / 2 ^ s) by (apply Z.div_pos; lia).
  destruct (Z.leb_spec (2 ^ s) M) as [L | L].
  - unfold halved. destruct (Z.lt_trichotomy c 0) as [C | [C | C]]; [rewrite Z.sgn_neg by lia | lia | rewrite Z.sgn_pos by lia].
    + destruct (Z.ltb_spec (-1 * M) 0); [| lia]. rewrite Z.quot_opp_l by lia. rewrite Z.quot_div_nonneg by lia. lia.
    + destruct (Z.ltb_spec (1 * M) 0); [lia |]. rewrite Z.quot_div_nonneg by lia. lia.
  - unfold halved. destruct (Z.lt_trichotomy c 0) as [C | [C | C]]; [rewrite Z.sgn_neg by lia | lia | rewrite Z.sgn_pos by lia].
    + replace (-1 * M) with (- M) by lia. rewrite Z.quot_opp_l by lia. rewrite Z.quot_div_nonneg by lia. unfold M. replace (2 * Z.abs c + 1) with (1 + Z.abs c * 2) by lia. rewrite Z.div_add by lia. cbn. lia.
    + rewrite Z.mul_1_l, Z.quot_div_nonneg by lia. unfold M. replace (2 * Z.abs c + 1) with (1 + Z.abs c * 2) by lia. rewrite Z.div_add by lia. cbn. lia.
Qed.

(** Coefficients of the region, and small ones of the background. *)
Theorem c50_max_shift : forall s c, 0 < s < 31 -> 2 ^ s <= Z.abs c \/ Z.abs c < 2 ^ (s - 1) -> output s (decoded c) = max_shift s c.
Proof.
  intros s c Hs Hc. assert (P : 0 < 2 ^ (s - 1)) by (apply Z.pow_pos_nonneg; lia). assert (P2 : 2 ^ s = 2 * 2 ^ (s - 1)) by (rewrite <- Z.pow_succ_r by lia; f_equal; lia).
  unfold max_shift. destruct (Z.eq_dec c 0) as [-> | C0].
  - cbn [Z.abs]. destruct (Z.leb_spec (2 ^ s) 0); [lia |]. unfold output, roi_unshift. change (decoded 0) with 0. destruct (s =? 0); [reflexivity |]. destruct (31 <=? s); [reflexivity |].
    cbn [Z.abs]. rewrite Z.shiftl_mul_pow2, Z.mul_1_l by lia. destruct (Z.leb_spec (2 ^ s) 0); [lia | reflexivity].
  - rewrite output_decoded by assumption. destruct Hc as [Hc | Hc].
    + destruct (Z.leb_spec (2 ^ s) (2 * Z.abs c + 1)); [| lia]. destruct (Z.leb_spec (2 ^ s) (Z.abs c)); [| lia]. f_equal. rewrite Z.div_div by lia. rewrite (Z.mul_comm (2 ^ s)), <- Z.div_div by lia.
      f_equal. replace (2 * Z.abs c + 1) with (1 + Z.abs c * 2) by lia. rewrite Z.div_add by lia. cbn. lia.
    + destruct (Z.leb_spec (2 ^ s) (2 * Z.abs c + 1)); [lia |]. destruct (Z.leb_spec (2 ^ s) (Z.abs c)); [lia | reflexivity].
Qed.

(** Background coefficients in the plane below the shift are taken for the
    region's, and lost: the threshold is compared with twice the magnitude. *)
Theorem c50_background_refuted : forall s c, 0 < s < 31 -> 2 ^ (s - 1) <= Z.abs c < 2 ^ s -> max_shift s c = c /\ output s (decoded c) = 0 /\ c <> 0.
Proof.
  intros s c Hs Hc. assert (P : 0 < 2 ^ (s - 1)) by (apply Z.pow_pos_nonneg; lia). assert (P2 : 2 ^ s = 2 * 2 ^ (s - 1)) by (rewrite <- Z.pow_succ_r by lia; f_equal; lia).
  assert (C0 : c <> 0) by lia. split; [unfold max_shift; destruct (Z.leb_spec (2 ^ s) (Z.abs c)); [lia | reflexivity] |]. split; [| exact C0].
  rewrite output_decoded by assumption. destruct (Z.leb_spec (2 ^ s) (2 * Z.abs c + 1)); [| lia]. replace ((2 * Z.abs c + 1) / 2 ^ s) with 1; [change (1 / 2) with 0; lia |].
  apply (Z.div_unique _ _ 1 (2 * Z.abs c + 1 - 2 ^ s)); lia.
Qed.

Example c50_example : map (fun c => (max_shift 5 c, output 5 (decoded c))) [0; 15; -15; 16; -31; 32; 33; -96; 100] =
  [(0, 0); (15, 15); (-15, -15); (16, 0); (-31, 0); (1, 1); (1, 1); (-3, -3); (3, 3)].
Proof. vm_compute. reflexivity. Qed.

Print Assumptions c36_round_trip.
Print Assumptions c46_truncated.
Print Assumptions c47_annex_d.
Print Assumptions c48_total.
Print Assumptions c50_max_shift.
