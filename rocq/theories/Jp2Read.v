(** Reading what was written. *)

From Coq Require Import ZArith List Bool Lia.
From Verif Require Import Ints CioModel CioProps HdrBytes Jp2Model.
From Verif Require HdrModel.
Import ListNotations.
Local Open Scope Z_scope.

Lemma zlen_app : forall (A : Type) (a b : list A), zlen (a ++ b) = zlen a + zlen b.
Proof. intros. unfold zlen. rewrite app_length. lia. Qed.
Lemma zlen_nonneg : forall (A : Type) (a : list A), 0 <= zlen a.
Proof. intros. unfold zlen. lia. Qed.
Lemma zlen_be : forall n v, (1 <= n <= 4)%nat -> zlen (be n v) = Z.of_nat n.
Proof. intros. unfold zlen. rewrite be_len by assumption. reflexivity. Qed.

Lemma be1 : forall v, be 1 v = [v mod 256].
Proof.
  intros. unfold be, HdrModel.be, to_be4. cbn [skipn Nat.sub]. rewrite byte_eq by lia. rewrite Z.pow_0_r, Z.div_1_r. reflexivity.
Qed.

Lemma rd_one : forall v d, 0 <= v < 256 -> rd 1 (v :: d) = Some (v, d).
Proof.
  intros v d H. change (v :: d) with ([v] ++ d). rewrite <- (Z.mod_small v 256) at 1 by lia. rewrite <- be1. apply rd1. exact H.
Qed.

Lemma want_be : forall A n v d (k : Z -> list Z -> res A), (1 <= n <= 4)%nat -> 0 <= v < 256 ^ Z.of_nat n ->
  want n (be n v ++ d) k = k v d.
Proof. intros. unfold want. rewrite rd_be by assumption. reflexivity. Qed.
Lemma want_one : forall A v d (k : Z -> list Z -> res A), 0 <= v < 256 -> want 1 (v :: d) k = k v d.
Proof. intros. unfold want. rewrite rd_one by assumption. reflexivity. Qed.

Lemma firstn_zlen : forall (A : Type) (a b : list A), firstn (Z.to_nat (zlen a)) (a ++ b) = a.
Proof. intros. unfold zlen. rewrite Nat2Z.id, firstn_app, Nat.sub_diag, firstn_all, firstn_O, app_nil_r. reflexivity. Qed.
Lemma skipn_zlen : forall (A : Type) (a b : list A), skipn (Z.to_nat (zlen a)) (a ++ b) = b.
Proof. intros. unfold zlen. rewrite Nat2Z.id, skipn_app, Nat.sub_diag, skipn_all. reflexivity. Qed.

Lemma read_written_box : forall max t n d, 0 <= n -> 8 + n < 2 ^ 32 -> 0 <= t < 2 ^ 32 ->
  read_box max (write_box t n ++ d) = (Some (mkBox (8 + n) t 8), d).
Proof.
  intros max t n d Hn Hs Ht. unfold read_box, write_box. rewrite u32_id by lia. rewrite <- app_assoc.
  rewrite rd4 by lia. rewrite rd4 by lia.
  destruct (Z.eqb_spec (8 + n) 0); [lia |]. destruct (Z.eqb_spec (8 + n) 1); [lia |]. reflexivity.
Qed.

Lemma zlen_write_box : forall t n, zlen (write_box t n) = 8.
Proof. intros. unfold write_box. rewrite zlen_app, !zlen_be by lia. reflexivity. Qed.

Section Checks.
Variable checks : bool.

Lemma content_of : forall A t n (k : Z -> res A), 0 <= n -> 8 + n < 2 ^ 32 ->
  content_length checks (mkBox (8 + n) t 8) k = k n.
Proof.
  intros A t n k Hn Hs. unfold content_length. cbn [b_length b_header].
  destruct (Z.ltb_spec (8 + n) 8); [lia |]. rewrite andb_false_r.
  replace (8 + n - 8) with n by lia. rewrite u32_id by lia. reflexivity.
Qed.

Lemma top_step : forall fuel j t c d, 8 + zlen c < 2 ^ 32 -> 0 <= t < 2 ^ 32 -> file_header t = true ->
  header_boxes checks (S fuel) j (write_box t (zlen c) ++ c ++ d) =
  bind (read_content checks t j c) (fun j => header_boxes checks fuel j d).
Proof.
  intros fuel j t c d Hs Ht Hf. pose proof (zlen_nonneg _ c) as H0. cbn [header_boxes]. rewrite read_written_box by lia.
  cbn [b_ty b_length b_header].
  assert (t =? JP2C = false) as ->.
  { destruct (Z.eqb_spec t JP2C) as [-> |]; [discriminate Hf | reflexivity]. }
  destruct (Z.eqb_spec (8 + zlen c) 0); [lia |]. destruct (Z.ltb_spec (8 + zlen c) 8); [lia |].
  rewrite content_of by lia. rewrite Hf. cbn [orb negb andb]. rewrite zlen_app. pose proof (zlen_nonneg _ d).
  destruct (Z.ltb_spec (zlen c + zlen d) (zlen c)); [lia |]. rewrite firstn_zlen, skipn_zlen. reflexivity.
Qed.

Lemma codestream_step : forall fuel j n cs, 0 <= n -> 8 + n < 2 ^ 32 -> has (j_state j) HEADER = true ->
  header_boxes checks (S fuel) j (write_box JP2C n ++ cs) = Got (set_state j (Z.lor (j_state j) CODESTREAM), cs).
Proof.
  intros. cbn [header_boxes]. rewrite read_written_box by (unfold JP2C; lia). cbn [b_ty].
  rewrite Z.eqb_refl, H1. reflexivity.
Qed.

Lemma jp2h_step : forall fuel i j t c d, 8 + zlen c < 2 ^ 32 -> 0 <= t < 2 ^ 32 -> image_header t = true ->
  jp2h_boxes checks (S fuel) i j (write_box t (zlen c) ++ c ++ d) =
  bind (read_image checks t j c) (fun j => jp2h_boxes checks fuel (i || (t =? IHDR)) j d).
Proof.
  intros fuel i j t c d Hs Ht Hi. pose proof (zlen_nonneg _ c) as H0. pose proof (zlen_nonneg _ d) as H1.
  assert (E : exists x l, write_box t (zlen c) ++ c ++ d = x :: l).
  { pose proof (zlen_write_box t (zlen c)) as Z. destruct (write_box t (zlen c)) as [| x l]; [discriminate Z |]. exists x, (l ++ c ++ d). reflexivity. }
  destruct E as (x & l & E). cbn [jp2h_boxes]. rewrite E. rewrite <- E. rewrite read_written_box by lia. cbn [b_ty b_length b_header].
  destruct (Z.ltb_spec (8 + zlen c) 8); [lia |].
  rewrite content_of by lia. rewrite Hi. rewrite zlen_app.
  destruct (Z.ltb_spec (zlen c + zlen d) (zlen c)); [lia |]. cbv zeta. rewrite firstn_zlen, skipn_zlen. reflexivity.
Qed.

(** Each box. *)
Lemma read_bytes_ok : forall l, Forall (fun v => 0 <= v < 256) l -> read_bytes (length l) l = Got l.
Proof.
  induction l as [| v l IH]; intros F; [reflexivity |]. inversion F; subst. cbn [length read_bytes].
  rewrite want_one by assumption. rewrite IH by assumption. reflexivity.
Qed.

Lemma read_words_ok : forall l d, Forall is_u32 l -> read_words (length l) (flat_map (be 4) l ++ d) = Got l.
Proof.
  induction l as [| v l IH]; intros d F; [reflexivity |]. inversion F as [| ? ? Hv Fl]; subst. cbn [length read_words flat_map].
  rewrite <- app_assoc, want_be by (try lia; exact Hv). rewrite IH by assumption. reflexivity.
Qed.

Definition def_ok (d : def) : Prop := 0 <= d_cn d < 65536 /\ 0 <= d_typ d < 65536 /\ 0 <= d_asoc d < 65536.
Definition def_bytes (d : def) : list Z := be 2 (d_cn d) ++ be 2 (d_typ d) ++ be 2 (d_asoc d).
Lemma read_defs_ok : forall l d, Forall def_ok l -> read_defs (length l) (flat_map def_bytes l ++ d) = Got l.
Proof.
  induction l as [| [a b c] l IH]; intros d F; [reflexivity |]. inversion F as [| ? ? (Ha & Hb & Hc) Fl]; subst.
  cbn [d_cn d_typ d_asoc] in *. cbn [length read_defs flat_map]. unfold def_bytes at 1. cbn [d_cn d_typ d_asoc]. rewrite <- !app_assoc.
  rewrite !want_be by (try lia; cbn; lia). rewrite IH by assumption. reflexivity.
Qed.
Lemma def_bytes_len : forall l, zlen (flat_map def_bytes l) = 6 * zlen l.
Proof.
  induction l as [| d l IH]; [reflexivity |]. cbn [flat_map]. rewrite zlen_app, IH. unfold def_bytes at 1. rewrite !zlen_app, !zlen_be by lia.
  unfold zlen. cbn [length]. lia.
Qed.
Lemma words_len : forall l, zlen (flat_map (be 4) l) = 4 * zlen l.
Proof. induction l as [| d l IH]; [reflexivity |]. cbn [flat_map]. rewrite zlen_app, IH, zlen_be by lia. unfold zlen. cbn [length]. lia. Qed.

End Checks.
