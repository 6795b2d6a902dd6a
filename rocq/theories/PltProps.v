(** C62: packet length markers. *)

From Coq Require Import ZArith List Bool Lia.
From Verif Require Import Ints CioModel HdrModel HdrBytes PartModel PartSpec PartWrite PartProps PltModel PltSpec PltProofs.
Import ListNotations.
Local Open Scope Z_scope.

Lemma say_accepted : forall segs k sizes, say k segs sizes -> Forall (fun b => read_plt b = true) segs.
Proof.
  induction segs as [| b segs IH]; intros k sizes H; [constructor |]. destruct H as (c & l & more & -> & B & E & _ & H).
  constructor; [apply (accepted k c l B E) | apply (IH _ _ H)].
Qed.

(** What is written are segments, numbered from 0, that together tell the size of
    every packet in order, none divided between two segments; the decoder accepts
    each of them. *)
Theorem c62_written : forall sizes buf, Forall is_u32 sizes -> write_plt sizes = All buf ->
  exists segs, buf = flat_map (fun b => seg_bytes (PLT, b)) segs /\ say 0 segs sizes /\
    1 <= len segs <= 256 /\ Forall (fun b => len b <= 65533 /\ read_plt b = true) segs.
Proof.
  intros sizes buf U E. unfold write_plt in E. rewrite start_st in E. pose proof (run sizes [] [] U ltac:(cbn; lia) ltac:(cbn; lia)) as H. rewrite E in H.
  destruct H as [(c & segs & l & more & H1 & HB & H2 & H3 & H4 & H5 & H6 & H7) _]. cbn [app] in H1, H5. change (len (@nil (list Z))) with 0 in *.
  assert (S : say 0 ((0 :: c) :: segs) sizes) by (cbn [say]; exists c, l, more; auto).
  exists ((0 :: c) :: segs). split; [exact H1 |]. split; [exact S |]. split; [rewrite len_cons; pose proof (len_nonneg segs); lia |].
  pose proof (say_accepted _ _ _ S) as A. inversion A as [| ? ? A0 A1]; subst. constructor; [split; [rewrite len_cons; lia | exact A0] |].
  rewrite Forall_forall in *. intros b I. split; [apply H6, I | apply A1, I].
Qed.

(** There is no panic; writing fails only if 256 segments are not enough: never for
    less than 256 * 65528 bytes of lengths, always for more than 256 * 65532. *)
Theorem c62_fails : forall sizes, Forall is_u32 sizes ->
  write_plt sizes <> Panic /\
  (sum (map bytes_of sizes) < 256 * 65528 -> exists buf, write_plt sizes = All buf) /\
  (sum (map bytes_of sizes) > 256 * 65532 -> exists buf, write_plt sizes = TooMany buf).
Proof.
  intros sizes U. unfold write_plt. rewrite start_st. pose proof (run sizes [] [] U ltac:(cbn; lia) ltac:(cbn; lia)) as H.
  change (len (@nil (list Z))) with 0 in H. change (len (@nil Z)) with 0 in H. destruct (write_lengths sizes (st [] [])) as [buf | buf |]; [| | contradiction].
  - split; [discriminate |]. split; [intros _; exists buf; reflexivity | intros F; destruct H as (_ & H & _); lia].
  - split; [discriminate |]. split; [intros F; destruct H as (H & _); lia | intros _; exists buf; reflexivity].
Qed.

(** The bytes set aside are enough for the packets of any tile-part, as many as
    were counted and together shorter than 2^32 bytes -- although the estimate
    (16382 lengths of 4 bytes in a segment, 6 bytes for its header) is wrong for
    lengths of 5 bytes -- if their number is computed without overflow. *)
Theorem c62_room : forall hdr count sizes, Forall is_u32 sizes -> 0 <= hdr -> 1 <= count -> len sizes <= count -> sum sizes < 2 ^ 32 ->
  hdr + 5 * count + 6 * ((count + 16381) / 16382) + 1 < 2 ^ 32 ->
  forall buf, write_plt sizes = All buf \/ write_plt sizes = TooMany buf -> len buf <= reserved hdr count.
Proof.
  intros hdr count sizes U H C L S R buf E. unfold write_plt in E. rewrite start_st in E. pose proof (run sizes [] [] U ltac:(cbn; lia) ltac:(cbn; lia)) as W.
  change (len (flat [])) with 0 in W. change (len (@nil Z)) with 0 in W.
  assert (K : exists k, 0 <= k /\ len buf <= 0 + 5 + 0 + sum (map bytes_of sizes) + 5 * k /\ 65528 * k <= 0 + sum (map bytes_of sizes)).
  { destruct E as [E | E]; rewrite E in W; [apply W | apply W]. }
  destruct K as (k & K0 & K1 & K2). pose proof (room hdr count sizes k U H C L S R K0 ltac:(lia)). lia.
Qed.

(** What [encode] owes: no more data than there is room, made of the packets. *)
Definition coder_ok (count : Z) (encode : Z -> option (list Z * list Z)) : Prop :=
  forall room data sizes, encode room = Some (data, sizes) ->
    len data <= room /\ Forall (fun n => 0 <= n) sizes /\ sum sizes = len data /\ len sizes <= count.

Lemma sizes_small : forall sizes b, Forall (fun n => 0 <= n) sizes -> sum sizes < b -> Forall (fun n => 0 <= n < b) sizes.
Proof.
  induction 1 as [| n l N F IH]; intros S; [constructor |]. cbn [sum fold_right] in S. fold (sum l) in S. pose proof (sum_nonneg l F). constructor; [lia |].
  apply IH. lia.
Qed.

(** The body of a tile-part is refused, or is the length segments, SOD and the
    packets; it leaves the two bytes for EOC.  Nothing is written past the end of
    the buffer of the segments, and the assertion on its size holds. *)
Theorem c62_sod : forall hdr count total encode, is_u32 total -> 0 <= hdr -> 1 <= count -> coder_ok count encode ->
  hdr + 5 * count + 6 * ((count + 16381) / 16382) + 1 < 2 ^ 32 ->
  match write_sod true (reserved hdr count) total encode with
  | Sod bytes => exists data sizes segs, encode (total - 4 - reserved hdr count) = Some (data, sizes) /\
      bytes = flat_map (fun b => seg_bytes (PLT, b)) segs ++ be 2 SOD ++ data /\ say 0 segs sizes /\ len bytes <= total - 2
  | Refused => total < 4 + reserved hdr count \/ encode (total - 4 - reserved hdr count) = None \/
      exists data sizes, encode (total - 4 - reserved hdr count) = Some (data, sizes) /\ 256 * 65528 <= sum (map bytes_of sizes)
  | Overrun | Stopped => False
  end.
Proof.
  intros hdr count total encode T H C O R. unfold write_sod.
  assert (R0 : 0 <= reserved hdr count) by (unfold reserved, u32; apply Z.mod_pos_bound; lia).
  destruct (Z.ltb_spec total 4); [left; lia |]. destruct (Z.ltb_spec (total - 4) (reserved hdr count)); [left; lia |].
  destruct (encode (total - 4 - reserved hdr count)) as [[data sizes] |] eqn:E; [| right; left; reflexivity]. cbn [negb].
  destruct (O _ _ _ E) as (O1 & O2 & O3 & O4). unfold is_u32 in T.
  assert (U : Forall is_u32 sizes) by (apply sizes_small; [exact O2 | lia]).
  destruct (c62_fails sizes U) as (NP & F1 & _).
  pose proof (c62_room hdr count sizes U H C O4 ltac:(lia) R) as RM.
  destruct (write_plt sizes) as [buf | buf |] eqn:W; [| | congruence].
  - specialize (RM buf (or_introl eq_refl)). fold (len buf). destruct (Z.leb_spec (len buf) (reserved hdr count)); [| lia].
    destruct (c62_written sizes buf U W) as (segs & -> & S & _). exists data, sizes, segs. split; [reflexivity |]. split; [reflexivity |]. split; [exact S |].
    rewrite !len_app. change (len (be 2 SOD)) with 2. lia.
  - specialize (RM buf (or_intror eq_refl)). fold (len buf). destruct (Z.leb_spec (len buf) (reserved hdr count)); [| lia].
    right. right. exists data, sizes. split; [reflexivity |]. destruct (Z.lt_ge_cases (sum (map bytes_of sizes)) (256 * 65528)) as [Q | Q]; [| exact Q].
    destruct (F1 Q) as (b & X). discriminate X.
Qed.

(** The decoder's handlers, PLT with the others. *)
Definition with_plt {C} (handle : Z -> Z -> C -> list Z -> option C) (m i : Z) (c : C) (b : list Z) : option C :=
  if m =? PLT then if read_plt b then Some c else None else handle m i c b.

Lemma after_app : forall {C} (h : Z -> Z -> C -> list Z -> option C) i a b c,
  after h i c (a ++ b) = match after h i c a with None => None | Some c => after h i c b end.
Proof. intros C h i. induction a as [| [m x] a IH]; intros b c; cbn [app after]; [reflexivity |]. destruct (h m i c x); [apply IH | reflexivity]. Qed.

Lemma after_plt : forall {C} (handle : Z -> Z -> C -> list Z -> option C) i c segs, Forall (fun b => read_plt b = true) segs ->
  after (with_plt handle) i c (map (fun b => (PLT, b)) segs) = Some c.
Proof.
  intros C handle i c segs H. induction H as [| b segs B _ IH]; cbn [map after]; [reflexivity |]. unfold with_plt at 1. rewrite Z.eqb_refl, B. exact IH.
Qed.

(** A tile with the sizes of the packets of each tile-part, and the heads written
    for them. *)
Definition told_part (x : list Z * list Z * list Z) : Prop :=
  let '(sizes, heads, data) := x in Forall is_u32 sizes /\ write_plt sizes = All heads /\ 14 + len heads + len data < 2 ^ 32.
Definition heads_data (x : list Z * list Z * list Z) : list Z * list Z := let '(_, heads, data) := x in (heads, data).
Definition told_tile (t : list (list Z * list Z * list Z)) : Prop :=
  Forall told_part t /\ t <> [] /\ len t <= 255 /\ flat_map snd t <> [] /\ len (flat_map snd t) <= 2 ^ 32 - 3.

Lemma flat_pairs : forall segs, flat_map seg_bytes (map (fun b => (PLT, b)) segs) = flat_map (fun b => seg_bytes (PLT, b)) segs.
Proof. induction segs as [| b segs IH]; cbn [map flat_map]; [reflexivity |]. rewrite IH. reflexivity. Qed.

Lemma told_written : forall t, Forall told_part t -> exists w : written, raw w = map heads_data t /\ flat_map snd w = flat_map snd t /\ length w = length t /\
  (forall C (handle : Z -> Z -> C -> list Z -> option C) i c, after (with_plt handle) i c (flat_map fst w) = Some c) /\
  Forall (fun x => Forall (fun sg => in_header (fst sg) /\ len (snd sg) <= 65533) (fst x) /\ 14 + len (flat_map seg_bytes (fst x)) + len (snd x) < 2 ^ 32) w.
Proof.
  induction 1 as [| [[sizes heads] data] t (U & W & L) _ (w & I1 & I2 & I3 & I4 & I5)].
  - exists []. split; [reflexivity |]. split; [reflexivity |]. split; [reflexivity |]. split; [reflexivity | constructor].
  - destruct (c62_written sizes heads U W) as (segs & E & _ & _ & A).
    exists ((map (fun b => (PLT, b)) segs, data) :: w). split; [| split; [| split; [| split]]].
    + cbn [raw map heads_data fst snd]. fold (raw w). rewrite I1, flat_pairs, <- E. reflexivity.
    + cbn [flat_map snd]. rewrite I2. reflexivity.
    + cbn [length]. rewrite I3. reflexivity.
    + intros C handle i c. cbn [flat_map fst]. rewrite after_app, after_plt; [apply I4 |]. eapply Forall_impl; [| exact A]. intros b B. apply B.
    + constructor; [| exact I5]. cbn [fst snd]. rewrite flat_pairs, <- E. split; [| exact L]. apply Forall_forall. intros sg I. apply in_map_iff in I.
      destruct I as (b & <- & I). cbn [fst snd]. rewrite Forall_forall in A. split; [unfold in_header; cbn [In]; tauto | apply A, I].
Qed.

(** Tile-parts with packet lengths are read back like those without. *)
Theorem c62_read : forall {C R} (handle : Z -> Z -> C -> list Z -> option C) (use : Z -> C -> list Z -> option R)
    wanted strict seekable fails par ts res,
  Forall told_tile ts -> ts <> [] -> len ts <= 65535 ->
  (forall i t, 0 <= i -> nth_error ts (Z.to_nat i) = Some t -> wanted i = true -> use i (par i) (flat_map snd t) = Some (res i)) ->
  decode_tiles (with_plt handle) use (len ts) wanted strict seekable fails par (skipn 2 (write_tiles 0 (map (map heads_data) ts))) =
  Done (map (fun i => (i, res i)) (filter wanted (tiles (len ts)))).
Proof.
  intros C R handle use wanted strict seekable fails par ts res OK NE LE USE.
  assert (X : exists ws : list written, map raw ws = map (map heads_data) ts /\ length ws = length ts /\ Forall tile_ok ws /\
    forall n w, nth_error ws n = Some w -> exists t, nth_error ts n = Some t /\ flat_map snd w = flat_map snd t /\
      forall i c, after (with_plt handle) i c (flat_map fst w) = Some c).
  { clear NE LE USE. induction OK as [| t ts (T1 & T2 & T3 & T4 & T5) _ (ws & I1 & I2 & I3 & I4)].
    - exists []. split; [reflexivity |]. split; [reflexivity |]. split; [constructor |]. intros [| n] w E; discriminate E.
    - destruct (told_written t T1) as (w & W1 & W2 & W3 & W4 & W5). exists (w :: ws). split; [cbn [map]; rewrite W1, I1; reflexivity |].
      split; [cbn [length]; lia |]. split.
      + constructor; [| exact I3]. split; [intros ->; destruct t; [contradiction | discriminate W3] |]. split; [unfold len in *; rewrite W3; exact T3 |].
        rewrite W2. split; [exact T4 |]. split; [exact T5 | exact W5].
      + intros [| n] v E; [| apply I4, E]. injection E as <-. exists t. split; [reflexivity |]. split; [exact W2 |]. intros; apply W4. }
  destruct X as (ws & X1 & X2 & X3 & X4). assert (LW : len ws = len ts) by (unfold len; rewrite X2; reflexivity).
  rewrite <- X1, <- LW. apply c60_written; [exact X3 | intros ->; destruct ts; [contradiction | discriminate X2] | lia |].
  intros i w I E W. destruct (X4 _ _ E) as (t & T & D & A). exists (par i). split; [apply A |]. rewrite D. apply (USE i t I T W).
Qed.

(** ** Examples *)

Example plt_small : write_plt [5; 127; 128; 300; 2 ^ 32 - 1] = All (be 2 65368 ++ be 2 14 ++ [0; 5; 127; 129; 0; 130; 44; 143; 255; 255; 255; 127]).
Proof. vm_compute. reflexivity. Qed.
Example plt_said : lengths [5; 127; 129; 0; 130; 44; 143; 255; 255; 255; 127] 0 false = Some [5; 127; 128; 300; 2 ^ 32 - 1].
Proof. vm_compute. reflexivity. Qed.
Example sod_small : write_sod true (reserved 12 4) 100 (fun room => if room <? 3 then None else Some ([7; 8; 9], [2; 1])) =
  Sod ([255; 88; 0; 5; 0; 2; 1] ++ [255; 147] ++ [7; 8; 9]).
Proof. vm_compute. reflexivity. Qed.
Example plt_none : write_sod true (reserved 12 4) 100 (fun room => Some ([], [])) = Sod [255; 88; 0; 3; 0; 255; 147].
Proof. vm_compute. reflexivity. Qed.

(** ** What does not hold *)

(** The number of bytes to set aside is computed modulo 2^32.  A tile of 5894 by
    5894 pixels and three components, with 32 levels and precincts of 2 by 2
    samples, is counted to have 1 * 2947^2 * 3 * 33 packets; 4.3 MB are allocated,
    and for its 34 million packets, though they are of one byte each, more than 16
    MB written there before the 256 segments are exhausted. *)
Theorem c62_overflow_refuted : exists layers prec comps res hdr total encode,
  layers * prec * comps * res < 2 ^ 32 /\ is_u32 total /\ coder_ok (packet_count layers prec comps res) encode /\
  write_sod true (reserved hdr (packet_count layers prec comps res)) total encode = Overrun.
Proof.
  assert (X : exists N, Z.of_nat N = 34000000) by (exists (Z.to_nat 34000000); apply Z2Nat.id; discriminate). destruct X as (N & HN).
  assert (LN : forall x : Z, len (repeat x N) = 34000000) by (intros x; unfold len; rewrite repeat_length; exact HN).
  assert (SN : forall (f : Z -> Z) n, f 1 = 1 -> sum (map f (repeat 1 n)) = Z.of_nat n).
  { intros f n F. induction n as [| n IH]; [reflexivity |]. cbn [repeat map sum fold_right]. fold (sum (map f (repeat 1 n))). rewrite IH, F. lia. }
  assert (S1 : sum (repeat 1 N) = 34000000).
  { pose proof (SN (fun x => x) N eq_refl) as E. rewrite map_id in E. rewrite E. exact HN. }
  assert (S2 : sum (map bytes_of (repeat 1 N)) = 34000000) by (rewrite SN by reflexivity; exact HN).
  assert (U : Forall is_u32 (repeat 1 N)) by (apply Forall_forall; intros x I; apply repeat_spec in I; subst x; unfold is_u32; lia).
  exists 1, (2947 * 2947), 3, 33, 12, 200000000, (fun room => if room <? 34000000 then None else Some (repeat 0 N, repeat 1 N)).
  assert (P : packet_count 1 (2947 * 2947) 3 33 = 859796091) by reflexivity. rewrite P.
  assert (RV : reserved 12 859796091 = 4328082) by reflexivity. rewrite RV.
  split; [reflexivity |]. split; [unfold is_u32; lia |]. split.
  - intros room data sizes E. destruct (Z.ltb_spec room 34000000); [discriminate E |]. injection E as <- <-. rewrite !LN, S1.
    split; [lia |]. split; [| lia]. apply Forall_forall. intros x I. apply repeat_spec in I. lia.
  - unfold write_sod. change (200000000 <? 4) with false. change (200000000 - 4 <? 4328082) with false. change (200000000 - 4 - 4328082 <? 34000000) with false. cbn [negb].
    destruct (c62_fails (repeat 1 N) U) as (_ & _ & F). destruct (F ltac:(rewrite S2; lia)) as (buf & W). rewrite W.
    unfold write_plt in W. rewrite start_st in W. pose proof (run (repeat 1 N) [] [] U ltac:(cbn; lia) ltac:(cbn; lia)) as Q. rewrite W in Q. destruct Q as (_ & Q & _).
    change (len (flat [])) with 0 in Q. change (len (@nil (list Z))) with 0 in Q. fold (len buf). destruct (Z.leb_spec (len buf) 4328082); [lia | reflexivity].
Qed.

(** The bits of a length that a segment ends in the middle of. *)
Fixpoint pending (b : list Z) (acc : Z) : Z :=
  match b with
  | [] => acc
  | x :: b => pending b (if x <? 128 then 0 else 128 * acc + (x - 128))
  end.

Lemma scan_pending : forall b acc, Forall (fun x => 0 <= x < 256) b -> scan b (u32 (128 * acc)) = u32 (128 * pending b acc).
Proof.
  intros b acc H. revert acc. induction H as [| x b Hx _ IH]; intros acc; cbn [scan pending]; [reflexivity |].
  assert (E : Z.land x 128 =? 0 = (x <? 128)).
  { change 128 with (2 ^ 7) at 1. replace (Z.land x (2 ^ 7)) with (Z.land (2 ^ 7 * (x / 2 ^ 7)) (2 ^ 7)).
    - assert (K : x / 2 ^ 7 = if x <? 128 then 0 else 1) by (destruct (Z.ltb_spec x 128); [apply Z.div_small; lia | symmetry; apply Z.div_unique with (r := x - 128); lia]).
      rewrite K. destruct (x <? 128); reflexivity.
    - apply Z.bits_inj'. intros i Hi. rewrite !Z.land_spec. destruct (Z.eq_dec i 7) as [-> | Ne].
      + f_equal. rewrite Z.mul_comm, <- Z.shiftl_mul_pow2 by lia. rewrite <- Z.shiftr_div_pow2 by lia. rewrite Z.shiftl_spec, Z.shiftr_spec by lia. reflexivity.
      + rewrite Z.pow2_bits_false by lia. rewrite !andb_false_r. reflexivity. }
  rewrite E. destruct (Z.ltb_spec x 128) as [L | L]; [apply (IH 0) |]. rewrite <- IH. f_equal.
  change 127 with (Z.ones 7). rewrite Z.land_ones by lia. rewrite Z.shiftl_mul_pow2 by lia. change (2 ^ 7) with 128.
  replace (x mod 128) with (x - 128) by (apply Z.mod_unique_pos with (q := 1); lia).
  assert (Z.lor (u32 (128 * acc)) (x - 128) = u32 (128 * acc) + (x - 128)) as ->.
  { unfold u32. replace ((128 * acc) mod 2 ^ 32) with (Z.shiftl (acc mod 2 ^ 25) 7).
    - assert (N : Z.land (Z.shiftl (acc mod 2 ^ 25) 7) (x - 128) = 0); [| rewrite Z.add_nocarry_lxor by exact N; symmetry; apply Z.lxor_lor; exact N].
      apply Z.bits_inj'. intros i Hi. rewrite Z.land_spec, Z.bits_0, Z.shiftl_spec by lia. destruct (Z_lt_ge_dec i 7); [rewrite Z.testbit_neg_r by lia; reflexivity |].
      replace (x - 128) with ((x - 128) mod 2 ^ 7) by (apply Z.mod_small; lia). rewrite (Z.mod_pow2_bits_high (x - 128)) by lia. apply andb_false_r.
    - rewrite Z.shiftl_mul_pow2 by lia. replace (2 ^ 32) with (128 * 2 ^ 25) by reflexivity. rewrite Z.mul_mod_distr_l by lia. lia. }
  unfold u32. rewrite Z.mul_add_distr_r. rewrite <- Z.add_mod_idemp_l by lia. rewrite Z.mul_mod_idemp_l by lia. rewrite Z.add_mod_idemp_l by lia. f_equal. lia.
Qed.

(** The decoder refuses a segment exactly if it ends in the middle of a length
    whose bits so far, shifted left by seven in 32 bits, are not all zero. *)
Theorem c62_accepts : forall z b, Forall (fun x => 0 <= x < 256) b -> (read_plt (z :: b) = true <-> (128 * pending b 0) mod 2 ^ 32 = 0).
Proof.
  intros z b H. cbn [read_plt]. pose proof (scan_pending b 0 H) as E. change (u32 (128 * 0)) with 0 in E. rewrite E. apply Z.eqb_eq.
Qed.

(** The decoder accepts a segment that ends in the middle of a length, if the bits
    so far are zeros or have been shifted out. *)
Theorem c62_unfinished_refuted : exists b, Forall (fun x => 0 <= x < 256) b /\ b <> [] /\ lengths (skipn 1 b) 0 false = None /\ read_plt b = true.
Proof. exists [0; 144; 128; 128; 128; 128]. split; [repeat constructor; lia |]. split; [discriminate |]. split; reflexivity. Qed.

Print Assumptions c62_written.
Print Assumptions c62_fails.
Print Assumptions c62_room.
Print Assumptions c62_sod.
Print Assumptions c62_read.
Print Assumptions c62_overflow_refuted.
Print Assumptions c62_unfinished_refuted.
Print Assumptions c62_accepts.
