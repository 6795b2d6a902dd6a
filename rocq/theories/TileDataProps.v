(** C41: tile samples packed for encoding come back. *)

From Coq Require Import ZArith List Lia Bool.
From Verif Require Import I32 Ints MathModel MathProps TileDataModel.
Import ListNotations.
Local Open Scope Z_scope.
Ltac Zify.zify_post_hook ::= Z.div_mod_to_equations.

(** Spec: whole bytes per sample, with 4 instead of 3. *)
Theorem c41_sample_bytes : forall prec, 1 <= prec <= 32 ->
  size_comp prec = if prec <=? 8 then 1 else if prec <=? 16 then 2 else 4.
Proof.
  intros prec H. assert (E : exists k, prec = Z.of_nat k /\ (1 <= k <= 32)%nat) by (exists (Z.to_nat prec); lia).
  destruct E as (k & -> & Hk). do 33 (destruct k as [| k]; [first [lia | vm_compute; reflexivity] |]). lia.
Qed.

Lemma le_bytes_length : forall n x, length (le_bytes n x) = n.
Proof. induction n; intros; cbn [le_bytes length]; [reflexivity | rewrite IHn; reflexivity]. Qed.

Lemma le_value_bytes : forall n x, le_value (le_bytes n x) = x mod 256 ^ Z.of_nat n.
Proof.
  induction n; intros x; cbn [le_bytes le_value]; [rewrite Z.mod_1_r; reflexivity |]. rewrite IHn. unfold as_u8.
  rewrite Nat2Z.inj_succ, Z.pow_succ_r by lia. rewrite Z.rem_mul_r by (try apply Z.pow_nonzero; lia). lia.
Qed.

Lemma ne_length : forall big n x, length (ne_bytes big n x) = n.
Proof. intros [|] n x; unfold ne_bytes; [rewrite rev_length |]; apply le_bytes_length. Qed.

Lemma ne_value : forall big n x, from_ne big (ne_bytes big n x) = x mod 256 ^ Z.of_nat n.
Proof. intros [|] n x; unfold from_ne, ne_bytes; [rewrite rev_involutive |]; apply le_value_bytes. Qed.

Definition good_size (sz : Z) : Prop := sz = 1 \/ sz = 2 \/ sz = 4.

Lemma pack1_length : forall big sz sg v, good_size sz -> length (pack1 big sz sg v) = Z.to_nat sz.
Proof.
  intros big sz sg v [-> | [-> | ->]]; unfold pack1; cbn [Z.eqb Pos.eqb]; [destruct (sg =? 0); reflexivity | |].
  - destruct (sg =? 0); apply ne_length.
  - apply ne_length.
Qed.

(** What one sample becomes. *)
Definition stored (sz v : Z) : Z := if sz =? 4 then i32 v else v mod 256 ^ sz.

Lemma land255 : forall x, Z.land x 255 = x mod 256.
Proof. intros x. change 255 with (Z.ones 8). rewrite Z.land_ones by lia. reflexivity. Qed.
Lemma land65535 : forall x, Z.land x 65535 = x mod 65536.
Proof. intros x. change 65535 with (Z.ones 16). rewrite Z.land_ones by lia. reflexivity. Qed.

Lemma pack1_value : forall big sz sg v, good_size sz -> unpack1 big sz sg (pack1 big sz sg v) = stored sz v.
Proof.
  intros big sz sg v [-> | [-> | ->]]; unfold pack1, unpack1, stored; cbn [Z.eqb Pos.eqb].
  - change (256 ^ 1) with 256.
    destruct (sg =? 0); cbn [nth]; unfold as_u8, as_i8; rewrite ?land255; rewrite ?Z.mod_mod by lia; [reflexivity | lia].
  - assert (A : forall y, from_ne big (ne_bytes big 2 (as_i16 y)) = y mod 65536).
    { intros y. rewrite ne_value. unfold as_i16. change (256 ^ Z.of_nat 2) with 65536. change (2 ^ 16) with 65536.
      change (2 ^ 15) with 32768. lia. }
    change (256 ^ 2) with 65536. destruct (sg =? 0); rewrite A; rewrite ?land65535, ?Z.mod_mod by lia; reflexivity.
  - rewrite ne_value. change (256 ^ Z.of_nat 4) with (2 ^ 32). destruct (i32_witness v) as [k _].
    apply (i32_eq _ _ (- (v / 2 ^ 32))). pose proof (Z.div_mod v (2 ^ 32) ltac:(lia)). lia.
Qed.

(** The samples of a plane in row order. *)
Definition samples (p : plane) : list Z :=
  flat_map (fun j => map (fun i => src p (j * (pw p + pstride p) + i)) (upto (pw p))) (upto (ph p)).

Lemma upto_length : forall n, length (upto n) = Z.to_nat n.
Proof. intros. unfold upto. rewrite map_length, seq_length. reflexivity. Qed.

Lemma samples_length : forall p, 0 <= pw p -> 0 <= ph p -> length (samples p) = Z.to_nat (pw p * ph p).
Proof.
  intros p Hw Hh. unfold samples. rewrite Z2Nat.inj_mul by assumption.
  assert (G : forall (l : list Z) (f : Z -> Z -> Z),
    length (flat_map (fun j => map (f j) (upto (pw p))) l) = (Z.to_nat (pw p) * length l)%nat).
  { induction l; intros f; cbn [flat_map length]; [lia |].
    rewrite app_length, map_length, upto_length, IHl. lia. }
  rewrite G, upto_length. reflexivity.
Qed.

Lemma get_bytes : forall big sz sg (f : Z -> Z -> Z) a l,
  flat_map (fun j => flat_map (fun i => pack1 big sz sg (f j i)) a) l =
  flat_map (pack1 big sz sg) (flat_map (fun j => map (f j) a) l).
Proof.
  intros big sz sg f a l. induction l as [| j l IH]; cbn [flat_map]; [reflexivity |].
  rewrite flat_map_app, IH. f_equal. clear IH. induction a as [| i a IH]; cbn [flat_map map]; [reflexivity |]. rewrite IH. reflexivity.
Qed.

Lemma packed_length : forall big sz sg l, good_size sz ->
  length (flat_map (pack1 big sz sg) l) = (length l * Z.to_nat sz)%nat.
Proof.
  intros big sz sg l Hs. induction l; cbn [flat_map length]; [reflexivity |].
  rewrite app_length, pack1_length, IHl by exact Hs. lia.
Qed.

Lemma chunks_packed : forall big sz sg l, good_size sz ->
  map (unpack1 big sz sg) (chunks (Z.to_nat sz) (length l) (flat_map (pack1 big sz sg) l)) = map (stored sz) l.
Proof.
  intros big sz sg l Hs. induction l as [| v l IH]; cbn [flat_map length chunks map]; [reflexivity |].
  pose proof (pack1_length big sz sg v Hs) as L. rewrite <- L at 1 3.
  rewrite firstn_app, skipn_app, Nat.sub_diag, firstn_all, skipn_all. cbn [firstn skipn app].
  rewrite app_nil_r, pack1_value, IH by exact Hs. reflexivity.
Qed.

Definition good_plane (p : plane) : Prop :=
  good_size (size_comp (prec p)) /\ 1 <= pw p /\ 1 <= ph p.

Lemma size_test : forall sz, good_size sz -> (sz =? 1) || (sz =? 2) || (sz =? 4) = true.
Proof. intros sz [-> | [-> | ->]]; reflexivity. Qed.

Lemma get_plane_spec : forall big p dest, good_plane p ->
  (Z.to_nat (pw p * ph p) * Z.to_nat (size_comp (prec p)) <= length dest)%nat ->
  get_plane big p dest = Some (flat_map (pack1 big (size_comp (prec p)) (sgnd p)) (samples p),
                               skipn (Z.to_nat (pw p * ph p) * Z.to_nat (size_comp (prec p))) dest).
Proof.
  intros big p dest (Hs & Hw & Hh) Hl. unfold get_plane. rewrite size_test by exact Hs.
  rewrite Z2Nat.inj_mul by (try (destruct Hs as [-> | [-> | ->]]); nia).
  destruct (Nat.ltb_spec (length dest) (Z.to_nat (pw p * ph p) * Z.to_nat (size_comp (prec p)))); [lia |].
  destruct (Z.eqb_spec (pw p) 0); [lia |]. rewrite get_bytes. reflexivity.
Qed.

Lemma copy_plane_spec : forall big p rest, good_plane p ->
  copy_plane big p (flat_map (pack1 big (size_comp (prec p)) (sgnd p)) (samples p) ++ rest) =
  Some (Some (map (stored (size_comp (prec p))) (samples p)), rest).
Proof.
  intros big p rest (Hs & Hw & Hh). unfold copy_plane. rewrite size_test by exact Hs.
  pose proof (samples_length p ltac:(lia) ltac:(lia)) as Ls.
  assert (L : (Z.to_nat (pw p * ph p) * Z.to_nat (size_comp (prec p)))%nat =
              length (flat_map (pack1 big (size_comp (prec p)) (sgnd p)) (samples p)))
    by (rewrite packed_length by exact Hs; rewrite Ls; reflexivity).
  rewrite L. rewrite app_length. destruct (Nat.ltb_spec (length (flat_map (pack1 big (size_comp (prec p)) (sgnd p)) (samples p)) + length rest)
    (length (flat_map (pack1 big (size_comp (prec p)) (sgnd p)) (samples p)))); [lia |].
  rewrite firstn_app, skipn_app, Nat.sub_diag, firstn_all, skipn_all. cbn [firstn skipn app]. rewrite app_nil_r.
  rewrite <- Ls. rewrite chunks_packed by exact Hs. reflexivity.
Qed.

(** Size of the tile in bytes; the code computes it modulo 2^64. *)
Definition total (ps : list plane) : Z :=
  fold_right (fun p a => size_comp (prec p) * (pw p * ph p) + a) 0 ps.

Lemma input_size_spec : forall ps, Forall good_plane ps -> total ps < 2 ^ 64 -> input_size ps = total ps.
Proof.
  intros ps F. unfold input_size.
  enough (G : forall acc, 0 <= acc -> acc + total ps < 2 ^ 64 ->
    fold_left (fun a p => u64 (a + u64 (size_comp (prec p) * u64 (pw p * ph p)))) ps acc = acc + total ps) by (intros; apply G; lia).
  assert (Nn : forall qs, Forall good_plane qs -> 0 <= total qs).
  { induction 1 as [| q qs (Hs & Hw & Hh) _ IH]; cbn [total fold_right]; [lia |]. fold (total qs).
    assert (0 <= pw q * ph q) by (clear - Hw Hh; nia). destruct Hs as [-> | [-> | ->]]; lia. }
  induction F as [| q qs (Hs & Hw & Hh) Fq IH]; intros acc Ha Ht; cbn [fold_left total fold_right] in *; [lia |].
  fold (total qs) in *. pose proof (Nn qs Fq). assert (0 <= pw q * ph q) by (clear - Hw Hh; nia).
  assert (R : 0 <= size_comp (prec q) * (pw q * ph q) /\ pw q * ph q <= size_comp (prec q) * (pw q * ph q))
    by (destruct Hs as [-> | [-> | ->]]; lia).
  rewrite (u64_id (pw q * ph q)), (u64_id (size_comp (prec q) * (pw q * ph q))), (u64_id (acc + _)) by lia.
  rewrite IH; lia.
Qed.

Lemma total_nonneg : forall qs, Forall good_plane qs -> 0 <= total qs.
Proof.
  induction 1 as [| q qs (Hs & Hw & Hh) _ IH]; cbn [total fold_right]; [lia |]. fold (total qs).
  assert (0 <= pw q * ph q) by (clear - Hw Hh; nia). destruct Hs as [-> | [-> | ->]]; lia.
Qed.

(** What the encoder receives after the round trip through bytes, whatever the
    machine's byte order: 32-bit samples as they were, 8- and 16-bit samples
    modulo 2^8 and 2^16. The buffer has exactly the size the check wants. *)
Theorem c41_copied : forall big ps dest, Forall good_plane ps -> total ps < 2 ^ 64 ->
  length dest = Z.to_nat (input_size ps) ->
  exists bytes, get_tile big ps dest = Some bytes /\ length bytes = length dest /\
    copy_tile big ps bytes = Some (Some (map (fun p => Some (map (stored (size_comp (prec p))) (samples p))) ps)).
Proof.
  intros big ps dest F Ht L. rewrite input_size_spec in L by assumption.
  assert (G : exists bytes, get_tile big ps dest = Some bytes /\ length bytes = length dest /\
    copy_planes big ps bytes = Some (map (fun p => Some (map (stored (size_comp (prec p))) (samples p))) ps)).
  { clear Ht. revert dest L. induction F as [| p ps Hp F IH]; intros dest L; cbn [get_tile copy_planes map].
    - exists dest. auto.
    - cbn [total fold_right] in L. fold (total ps) in L. pose proof (total_nonneg ps F).
      pose proof Hp as (Hs & Hw & Hh). assert (P : 0 <= pw p * ph p) by (clear - Hw Hh; nia).
      assert (S0 : 0 <= size_comp (prec p) * (pw p * ph p)) by (destruct Hs as [-> | [-> | ->]]; lia).
      assert (S1 : 0 <= size_comp (prec p)) by (destruct Hs as [-> | [-> | ->]]; lia).
      rewrite Z2Nat.inj_add, (Z2Nat.inj_mul (size_comp _)) in L by lia.
      rewrite get_plane_spec by (try exact Hp; lia).
      destruct (IH (skipn (Z.to_nat (pw p * ph p) * Z.to_nat (size_comp (prec p))) dest)) as (bytes & E & Lb & C).
      { rewrite skipn_length. lia. }
      rewrite E. eexists. split; [reflexivity |]. split.
      + rewrite app_length, packed_length, samples_length, Lb, skipn_length by (try exact Hs; lia). lia.
      + rewrite copy_plane_spec by exact Hp. rewrite C. reflexivity. }
  destruct G as (bytes & E & Lb & C). exists bytes. split; [exact E |]. split; [exact Lb |].
  unfold copy_tile. rewrite input_size_spec, C, Lb, L, Z2Nat.id, Z.eqb_refl by (try assumption; apply total_nonneg, F).
  reflexivity.
Qed.

(** So the samples are unchanged if the component is unsigned, or has more
    than 16 bits. *)
Definition faithful (p : plane) : Prop :=
  1 <= prec p <= 32 /\ 1 <= pw p /\ 1 <= ph p /\
  ((sgnd p = 0 /\ Forall (fun v => 0 <= v < 2 ^ prec p /\ in_i32 v) (samples p)) \/ (16 < prec p /\ Forall in_i32 (samples p))).

Lemma stored_same : forall p, faithful p -> good_plane p /\ map (stored (size_comp (prec p))) (samples p) = samples p.
Proof.
  intros p (Hp & Hw & Hh & H). pose proof (c41_sample_bytes (prec p) Hp) as S.
  assert (G : good_size (size_comp (prec p))).
  { rewrite S. destruct (Z.leb_spec (prec p) 8); [left; reflexivity |].
    destruct (Z.leb_spec (prec p) 16); [right; left; reflexivity | right; right; reflexivity]. }
  split; [repeat split; assumption |]. rewrite <- map_id. apply map_ext_in. intros v Hv.
  assert (B : prec p <= 16 -> 0 <= v < 2 ^ prec p).
  { intros Hle. destruct H as [[_ F] | [Hgt _]]; [| lia]. rewrite Forall_forall in F. apply F, Hv. }
  assert (I : in_i32 v) by (destruct H as [[_ F] | [_ F]]; rewrite Forall_forall in F; apply F, Hv).
  rewrite S. unfold stored. destruct (Z.leb_spec (prec p) 8); [| destruct (Z.leb_spec (prec p) 16)]; cbn [Z.eqb Pos.eqb].
  - assert (2 ^ prec p <= 2 ^ 8) by (apply Z.pow_le_mono_r; lia). change (256 ^ 1) with (2 ^ 8). apply Z.mod_small.
    specialize (B ltac:(lia)). lia.
  - assert (2 ^ prec p <= 2 ^ 16) by (apply Z.pow_le_mono_r; lia). change (256 ^ 2) with (2 ^ 16). apply Z.mod_small.
    specialize (B ltac:(lia)). lia.
  - apply i32_id, I.
Qed.

Theorem c41_round_trip : forall big ps dest, Forall faithful ps -> total ps < 2 ^ 64 ->
  length dest = Z.to_nat (input_size ps) ->
  exists bytes, get_tile big ps dest = Some bytes /\ copy_tile big ps bytes = Some (Some (map (fun p => Some (samples p)) ps)).
Proof.
  intros big ps dest F Ht L.
  destruct (c41_copied big ps dest) as (bytes & E & _ & C); try assumption.
  { eapply Forall_impl; [| exact F]. intros p Hp. apply stored_same, Hp. }
  exists bytes. split; [exact E |]. rewrite C. do 2 f_equal. apply map_ext_in. intros p Hp. f_equal. apply stored_same.
  rewrite Forall_forall in F. apply F, Hp.
Qed.

(** Signed samples of up to 16 bits are not: the sign is lost, -1 becomes 255. *)
Theorem c41_signed_refuted : forall big, exists p bytes,
  prec p = 8 /\ sgnd p = 1 /\ pw p = 1 /\ ph p = 1 /\ samples p = [-1] /\
  get_tile big [p] [0] = Some bytes /\ copy_tile big [p] bytes = Some (Some [Some [255]]).
Proof. intros [|]; exists (mkPlane 8 1 1 1 0 (fun _ => -1)), [255]; vm_compute; repeat split. Qed.

(** A tile component without columns (possible with subsampling) panics. *)
Theorem c41_empty_refuted : forall big p dest, good_size (size_comp (prec p)) -> pw p = 0 -> 0 <= ph p ->
  get_tile big [p] dest = None.
Proof.
  intros big p dest Hs Hw Hh. cbn [get_tile]. unfold get_plane. rewrite size_test by exact Hs. rewrite Hw. cbn [Z.mul].
  cbn [Z.eqb]. destruct (length dest <? _)%nat; reflexivity.
Qed.

(** The samples read are those of the tile in an image stored with rows of
    ceil((x1 - x0) / dx) samples ... *)
Theorem c41_tile_position : forall ix0 ix1 iy0 dx dy tx0 tx1 ty0,
  0 <= ix0 < ix1 -> ix1 < 2 ^ 31 -> 0 <= iy0 < 2 ^ 31 -> 1 <= dx <= 255 -> 1 <= dy <= 255 ->
  (exists ox oy iw, ceil_of ix0 dx ox /\ ceil_of iy0 dy oy /\ ceil_of (ix1 - ix0) dx iw /\
     ox <= tx0 <= tx1 /\ tx1 - ox <= iw /\ oy <= ty0 < 2 ^ 31 /\ (ty0 - oy) * iw + iw < 2 ^ 32) ->
  exists ox oy iw stride off, ceil_of ix0 dx ox /\ ceil_of iy0 dy oy /\ ceil_of (ix1 - ix0) dx iw /\
    tile_dimensions ix0 ix1 iy0 dx dy tx0 tx1 ty0 = Some (iw, stride, off) /\
    forall i j, off + (j * ((tx1 - tx0) + stride) + i) = (ty0 + j - oy) * iw + (tx0 + i - ox).
Proof.
  intros ix0 ix1 iy0 dx dy tx0 tx1 ty0 Hx Hx1 Hy Hdx Hdy (ox & oy & iw & Ox & Oy & Iw & Ht & Hw & Hty & Hs).
  unfold tile_dimensions.
  destruct (c29_uint_ceildiv ix0 dx) as (q1 & E1 & C1); [unfold is_u32; lia .. |].
  destruct (c29_uint_ceildiv iy0 dy) as (q2 & E2 & C2); [unfold is_u32; lia .. |].
  destruct (c29_uint_ceildiv (ix1 - ix0) dx) as (q3 & E3 & C3); [unfold is_u32; lia .. |].
  rewrite (u32_id (ix1 - ix0)) by lia. rewrite E1, E2, E3.
  assert (Un : forall a d p q, 0 < d -> ceil_of a d p -> ceil_of a d q -> p = q) by (unfold ceil_of; clear; intros; nia).
  assert (Px : 0 < dx) by lia. assert (Py : 0 < dy) by lia.
  rewrite (Un _ _ _ _ Px C1 Ox), (Un _ _ _ _ Py C2 Oy), (Un _ _ _ _ Px C3 Iw).
  assert (Ob : 0 <= ox /\ 0 <= oy) by (clear - Ox Oy Hx Hy Hdx Hdy; unfold ceil_of in *; split; nia).
  assert (Ib : 0 <= iw < 2 ^ 31) by (clear - Iw Hx Hx1 Hdx; unfold ceil_of in *; nia).
  assert (M : 0 <= (ty0 - oy) * iw) by (clear - Hty Ib; nia).
  rewrite (u32_id (tx1 - tx0)), (u32_id (iw - (tx1 - tx0))) by lia.
  rewrite (u32_id (tx0 - ox)), (u32_id (ty0 - oy)), (u32_id ((ty0 - oy) * iw)), (u32_id (tx0 - ox + (ty0 - oy) * iw)) by lia.
  exists ox, oy, iw, (iw - (tx1 - tx0)), (tx0 - ox + (ty0 - oy) * iw).
  split; [exact Ox |]. split; [exact Oy |]. split; [exact Iw |]. split; [reflexivity |]. intros i j. ring.
Qed.

(** ... which is one sample more than the component has when the image origin
    is not a multiple of the subsampling. *)
Theorem c41_row_width_refuted : exists ix0 ix1 dx, 0 <= ix0 < ix1 /\ 1 <= dx <= 255 /\
  exists a b iw stride off, ceil_of ix0 dx a /\ ceil_of ix1 dx b /\
    tile_dimensions ix0 ix1 0 dx 1 a b 0 = Some (iw, stride, off) /\ iw <> b - a.
Proof. exists 1, 4, 2. split; [lia |]. split; [lia |]. exists 1, 2, 2, 1, 0. unfold ceil_of. repeat split; try lia; reflexivity. Qed.

(** The decoded size: exact, an error value when it does not fit in 32 bits;
    a component without columns panics. *)
Theorem c41_decoded_size : forall prec w h acc, 1 <= prec <= 32 -> 1 <= w < 2 ^ 32 -> 0 <= h < 2 ^ 32 -> is_u32 acc ->
  decoded_size_step prec w h acc =
  Some (if acc + w * h * size_comp prec <? 2 ^ 32 then Some (acc + w * h * size_comp prec) else None).
Proof.
  intros prec w h acc Hp Hw Hh Ha. unfold is_u32 in Ha. unfold decoded_size_step. pose proof (c41_sample_bytes prec Hp) as S.
  assert (G : 1 <= size_comp prec <= 4) by (rewrite S; destruct (prec <=? 8); [lia |]; destruct (prec <=? 16); lia).
  clear S Hp. set (sz := size_comp prec) in *. clearbody sz.
  destruct (Z.eqb_spec w 0); [lia |]. rewrite andb_false_r.
  assert (P : 0 <= w * h) by (clear - Hw Hh; nia).
  assert (Q : w * h <= w * h * sz) by (clear - P G; nia).
  destruct (Z.ltb_spec ((2 ^ 32 - 1) / w) h) as [A | A].
  - assert (2 ^ 32 - 1 < w * h).
    { clear - A Hw. pose proof (Z.mul_succ_div_gt (2 ^ 32 - 1) w ltac:(lia)). unfold Z.succ in *.
      set (q := (2 ^ 32 - 1) / w) in *. clearbody q. nia. }
    destruct (Z.ltb_spec 0 h) as [| Hz]; cbn [andb].
    + destruct (Z.ltb_spec (acc + w * h * sz) (2 ^ 32)); [lia | reflexivity].
    + assert (h = 0) by lia. subst h. rewrite Z.mul_0_r in *. lia.
  - rewrite andb_false_r.
    assert (B : w * h <= 2 ^ 32 - 1).
    { clear - A Hw Hh. pose proof (Z.mul_div_le (2 ^ 32 - 1) w ltac:(lia)). set (q := (2 ^ 32 - 1) / w) in *. clearbody q. nia. }
    rewrite (u32_id (w * h)) by lia. destruct (Z.eqb_spec sz 0); [lia |]. cbn [negb andb].
    set (t := w * h) in *. clearbody t.
    destruct (Z.ltb_spec ((2 ^ 32 - 1) / sz) t) as [C | C].
    + destruct (Z.ltb_spec (acc + t * sz) (2 ^ 32)); [exfalso | reflexivity].
      assert (2 ^ 32 - 1 < t * sz); [| lia]. clear - C G.
      pose proof (Z.mul_succ_div_gt (2 ^ 32 - 1) sz ltac:(lia)). unfold Z.succ in *.
      set (q := (2 ^ 32 - 1) / sz) in *. clearbody q. nia.
    + assert (D : t * sz <= 2 ^ 32 - 1).
      { clear - C G. pose proof (Z.mul_div_le (2 ^ 32 - 1) sz ltac:(lia)). set (q := (2 ^ 32 - 1) / sz) in *. clearbody q. nia. }
      rewrite (u32_id (t * sz)) by lia.
      destruct (Z.ltb_spec (2 ^ 32 - 1 - acc) (t * sz)), (Z.ltb_spec (acc + t * sz) (2 ^ 32)); try lia; [reflexivity |].
      rewrite u32_id by lia. reflexivity.
Qed.

Theorem c41_decoded_size_refuted : forall prec h acc, 1 <= h -> decoded_size_step prec 0 h acc = None.
Proof. intros prec h acc H. unfold decoded_size_step. destruct (Z.ltb_spec 0 h); [reflexivity | lia]. Qed.

Example c41_example :
  let p := mkPlane 12 0 2 2 1 (fun i => 1000 * i) in let q := mkPlane 8 0 1 2 0 (fun i => 7 + i) in
  faithful p /\ get_tile false [p; q] (repeat 0 10) = Some [0; 0; 232; 3; 184; 11; 160; 15; 7; 8] /\
  copy_tile false [p; q] [0; 0; 232; 3; 184; 11; 160; 15; 7; 8] = Some (Some [Some [0; 1000; 3000; 4000]; Some [7; 8]]) /\
  decoded_size_step 12 10 10 5 = Some (Some 205).
Proof.
  cbn zeta. split.
  - assert (E : samples (mkPlane 12 0 2 2 1 (fun i => 1000 * i)) = [0; 1000; 3000; 4000]) by reflexivity.
    unfold faithful. rewrite E. cbn [prec sgnd pw ph]. repeat split; try lia. left. split; [reflexivity |].
    unfold in_i32. repeat constructor; lia.
  - vm_compute. repeat split.
Qed.

Print Assumptions c41_sample_bytes.
Print Assumptions c41_copied.
Print Assumptions c41_round_trip.
Print Assumptions c41_signed_refuted.
Print Assumptions c41_empty_refuted.
Print Assumptions c41_tile_position.
Print Assumptions c41_row_width_refuted.
Print Assumptions c41_decoded_size.
Print Assumptions c41_decoded_size_refuted.
