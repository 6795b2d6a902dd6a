(** A file that was written is read back. *)

From Coq Require Import ZArith List Bool Lia.
From Verif Require Import Ints CioModel CioProps HdrBytes Jp2Model Jp2Read.
From Verif Require HdrModel.
Import ListNotations.
Local Open Scope Z_scope.

Definition octet (v : Z) : Prop := 0 <= v < 256.
(** The fields fit the fields of the boxes; a profile is as long as it is said to be. *)
Record Sound (j : jp2) : Prop := {
  s_h : 0 <= i_h (j_ihdr j) < 2 ^ 32; s_w : 0 <= i_w (j_ihdr j) < 2 ^ 32;
  s_bpc : octet (i_bpc (j_ihdr j)); s_c : octet (i_c (j_ihdr j)); s_unkc : octet (i_unkc (j_ihdr j)); s_ipr : octet (i_ipr (j_ihdr j));
  s_comps : 1 <= zlen (j_bpcc j) <= 16384; s_bpcc : Forall octet (j_bpcc j);
  s_prec : octet (c_precedence (j_colour j)); s_approx : octet (c_approx (j_colour j));
  s_enumcs : 0 <= c_enumcs (j_colour j) < 2 ^ 32;
  s_icc : c_meth (j_colour j) = 2 -> exists l, c_icc (j_colour j) = Some l /\ l <> [] /\ c_icc_len (j_colour j) = zlen l;
  s_cdef : forall l, j_cdef j = Some l -> l <> [] /\ Forall def_ok l /\ zlen l < 65536;
  s_brand : is_u32 (f_brand (j_ftyp j)); s_minv : is_u32 (f_minv (j_ftyp j)); s_cl : Forall is_u32 (f_cl (j_ftyp j)) }.

(** What the reader holds after a file with the header [j]. *)
Definition got_colour (c : colour) : colour :=
  if c_meth c =? 1 then
    mkColour 1 (c_precedence c) (c_approx c) (c_enumcs c)
      (if c_enumcs c =? 14 then Some (ne 14 ++ ne 0 ++ ne 0 ++ ne 0 ++ ne 0 ++ ne 0 ++ ne 0 ++ ne 4470064) else None) 0 true
  else mkColour 2 (c_precedence c) (c_approx c) 0 (c_icc c) (c_icc_len c) true.
Definition received (j : jp2) : jp2 :=
  mkJp2 (j_ihdr j) (if i_bpc (j_ihdr j) =? 255 then j_bpcc j else repeat 0 (length (j_bpcc j)))
    (got_colour (j_colour j)) (j_cdef j) None (j_ftyp j) 15 0 true true
    (i_bpc (j_ihdr j) =? 255, i_w (j_ihdr j), i_h (j_ihdr j)).

Lemma map_u8 : forall l, Forall octet l -> map u8 l = l.
Proof.
  induction l as [| v l IH]; intros F; [reflexivity |]. inversion F as [| ? ? Hv Fl]; subst. cbn [map]. rewrite IH by assumption.
  unfold u8. rewrite Z.mod_small by exact Hv. reflexivity.
Qed.

Section Checks.
Variable checks : bool.

Definition ihdr_body (j : jp2) : list Z :=
  be 4 (i_h (j_ihdr j)) ++ be 4 (i_w (j_ihdr j)) ++ be 2 (zlen (j_bpcc j)) ++
  [i_bpc (j_ihdr j); i_c (j_ihdr j); i_unkc (j_ihdr j); i_ipr (j_ihdr j)].
Lemma ihdr_bytes : forall j, Sound j -> write_ihdr j = write_box IHDR (zlen (ihdr_body j)) ++ ihdr_body j.
Proof.
  intros j SJ. assert (L : zlen (ihdr_body j) = 14) by (unfold ihdr_body; rewrite !zlen_app, !zlen_be by lia; reflexivity).
  rewrite L. unfold write_ihdr, ihdr_body, u16, u8. pose proof (s_comps _ SJ).
  rewrite !Z.mod_small by first [lia | apply SJ]. reflexivity.
Qed.
Lemma read_ihdr_ok : forall j k, Sound j -> 1 <= i_h (j_ihdr j) -> 1 <= i_w (j_ihdr j) -> j_bpcc k = [] ->
  read_ihdr k (ihdr_body j) = Got (set_ihdr k (j_ihdr j) (length (j_bpcc j)) (i_bpc (j_ihdr j) =? 255, i_w (j_ihdr j), i_h (j_ihdr j))).
Proof.
  intros j k SJ Hh Hw Hk. unfold read_ihdr. rewrite Hk. cbn [is_nil negb].
  assert (L : zlen (ihdr_body j) = 14) by (unfold ihdr_body; rewrite !zlen_app, !zlen_be by lia; reflexivity).
  rewrite L. cbn [Z.eqb Pos.eqb negb]. unfold ihdr_body.
  pose proof (s_comps _ SJ) as Hc. pose proof (s_h _ SJ). pose proof (s_w _ SJ).
  rewrite want_be by (try lia; exact H). rewrite want_be by (try lia; exact H0). rewrite want_be by (try lia; cbn; lia).
  destruct (Z.ltb_spec (i_h (j_ihdr j)) 1); [lia |]. destruct (Z.ltb_spec (i_w (j_ihdr j)) 1); [lia |].
  destruct (Z.ltb_spec (zlen (j_bpcc j)) 1); [lia |]. cbn [orb]. destruct (Z.ltb_spec 16384 (zlen (j_bpcc j))); [lia |].
  rewrite !want_one by apply SJ. unfold zlen. rewrite Nat2Z.id. destruct (j_ihdr j). reflexivity.
Qed.

Lemma bpcc_bytes : forall j, Sound j -> write_bpcc j = write_box BPCC (zlen (j_bpcc j)) ++ j_bpcc j.
Proof. intros j SJ. unfold write_bpcc. rewrite map_u8 by apply SJ. reflexivity. Qed.
Lemma read_bpcc_ok : forall j k, Sound j -> zlen (j_bpcc k) = zlen (j_bpcc j) -> read_bpcc k (j_bpcc j) = Got (set_bpcc k (j_bpcc j)).
Proof.
  intros j k SJ E. unfold read_bpcc. rewrite E, Z.eqb_refl. cbn [negb].
  replace (length (j_bpcc k)) with (length (j_bpcc j)) by (unfold zlen in E; lia). rewrite read_bytes_ok by apply SJ. reflexivity.
Qed.

Definition cdef_body (l : list def) : list Z := be 2 (zlen l) ++ flat_map def_bytes l.
Lemma cdef_len : forall l, zlen (cdef_body l) = 2 + 6 * zlen l.
Proof. intros. unfold cdef_body. rewrite zlen_app, zlen_be, def_bytes_len by lia. reflexivity. Qed.
Lemma cdef_bytes : forall j l, Sound j -> j_cdef j = Some l -> write_cdef j = Got (write_box CDEF (zlen (cdef_body l)) ++ cdef_body l).
Proof.
  intros j l SJ E. destruct (s_cdef _ SJ l E) as (Hn & Hd & Hl). unfold write_cdef. rewrite E. destruct l as [| d l]; [congruence |].
  cbn [is_nil]. rewrite cdef_len. pose proof (zlen_nonneg _ (d :: l)). unfold u16. rewrite Z.mod_small by lia.
  rewrite (u32_id (zlen (d :: l) * 6)) by lia. rewrite u32_id by lia. replace (zlen (d :: l) * 6) with (6 * zlen (d :: l)) by lia. reflexivity.
Qed.
Lemma read_cdef_ok : forall j k l, Sound j -> j_cdef j = Some l -> j_cdef k = None -> read_cdef k (cdef_body l) = Got (set_cdef k l).
Proof.
  intros j k l SJ E Ek. destruct (s_cdef _ SJ l E) as (Hn & Hd & Hl). unfold read_cdef. rewrite Ek.
  assert (1 <= zlen l) by (destruct l; [congruence | unfold zlen; cbn [length]; lia]).
  rewrite cdef_len. destruct (Z.ltb_spec (2 + 6 * zlen l) 2); [lia |]. unfold cdef_body. rewrite want_be by (try lia; cbn; lia).
  destruct (Z.eqb_spec (zlen l) 0); [lia |]. rewrite def_bytes_len. destruct (Z.ltb_spec (6 * zlen l) (zlen l * 6)); [lia |].
  unfold zlen. rewrite Nat2Z.id. rewrite <- (app_nil_r (flat_map def_bytes l)). rewrite read_defs_ok by assumption. reflexivity.
Qed.

Definition colr_body (j : jp2) : list Z :=
  [c_meth (j_colour j); c_precedence (j_colour j); c_approx (j_colour j)] ++
  (if c_meth (j_colour j) =? 1 then be 4 (c_enumcs (j_colour j)) else match c_icc (j_colour j) with Some l => l | None => [] end).
Lemma colr_bytes : forall j, Sound j -> 0 < c_meth (j_colour j) < 3 -> 8 + zlen (colr_body j) < 2 ^ 32 ->
  write_colr j = Got (write_box COLR (zlen (colr_body j)) ++ colr_body j).
Proof.
  intros j SJ Hm. unfold write_colr, u8. rewrite !Z.mod_small by first [lia | apply SJ].
  assert (C : c_meth (j_colour j) = 1 \/ c_meth (j_colour j) = 2) by lia. unfold colr_body. destruct C as [E | E]; rewrite E.
  - cbn [Z.eqb Pos.eqb orb negb andb]. rewrite zlen_app, zlen_be by lia. intros _. reflexivity.
  - destruct (s_icc _ SJ E) as (l & El & Hl & Hn). rewrite El, Hn.
    assert (1 <= zlen l) by (destruct l; [congruence | unfold zlen; cbn [length]; lia]).
    cbn [Z.eqb Pos.eqb orb negb andb]. destruct (Z.eqb_spec (zlen l) 0); [lia |]. rewrite zlen_app.
    change (zlen [2; c_precedence (j_colour j); c_approx (j_colour j)]) with 3. intros H0. rewrite u32_id by lia. reflexivity.
Qed.
Lemma read_colr_ok : forall j k, Sound j -> 0 < c_meth (j_colour j) < 3 -> 8 + zlen (colr_body j) < 2 ^ 32 ->
  j_colour k = mkColour 0 0 0 0 None 0 false ->
  read_colr k (colr_body j) = Got (set_colour k (got_colour (j_colour j))).
Proof.
  intros j k SJ Hm Hs Ek. unfold read_colr. rewrite Ek. cbn [c_has c_icc c_icc_len c_enumcs].
  assert (C : c_meth (j_colour j) = 1 \/ c_meth (j_colour j) = 2) by lia. revert Hs. unfold colr_body, got_colour. destruct C as [E | E]; rewrite E.
  - cbn [Z.eqb Pos.eqb]. intros _. rewrite zlen_app, zlen_be by lia. change (zlen [1; c_precedence (j_colour j); c_approx (j_colour j)]) with 3.
    cbn [Z.add Z.ltb Z.compare]. cbn [app]. rewrite want_one by lia. rewrite !want_one by apply SJ.
    cbn [Z.eqb Pos.eqb]. rewrite zlen_be by lia. cbn [Z.ltb Z.compare Pos.compare Pos.compare_cont].
    rewrite <- (app_nil_r (be 4 _)). rewrite want_be by (try lia; apply (s_enumcs _ SJ)).
    destruct (c_enumcs (j_colour j) =? 14); reflexivity.
  - destruct (s_icc _ SJ E) as (l & El & Hl & Hn). rewrite El, Hn. cbn [Z.eqb Pos.eqb]. rewrite zlen_app.
    change (zlen [2; c_precedence (j_colour j); c_approx (j_colour j)]) with 3. intros Hs. pose proof (zlen_nonneg _ l).
    destruct (Z.ltb_spec (3 + zlen l) 3); [lia |]. cbn [app]. rewrite want_one by lia. rewrite !want_one by apply SJ. cbn [Z.eqb Pos.eqb].
    rewrite u32_id by lia. reflexivity.
Qed.

Definition ftyp_body (j : jp2) : list Z := be 4 (f_brand (j_ftyp j)) ++ be 4 (f_minv (j_ftyp j)) ++ flat_map (be 4) (f_cl (j_ftyp j)).
Lemma ftyp_len : forall j, zlen (ftyp_body j) = 8 + 4 * zlen (f_cl (j_ftyp j)).
Proof. intros. unfold ftyp_body. rewrite !zlen_app, !zlen_be, words_len by lia. lia. Qed.
Lemma ftyp_bytes : forall j, 8 + zlen (ftyp_body j) < 2 ^ 32 -> write_ftyp j = write_box FTYP (zlen (ftyp_body j)) ++ ftyp_body j.
Proof.
  intros j H. unfold write_ftyp. rewrite ftyp_len in H |- *. pose proof (zlen_nonneg _ (f_cl (j_ftyp j))).
  rewrite (u32_id (4 * zlen (f_cl (j_ftyp j)))) by lia. rewrite u32_id by lia. reflexivity.
Qed.
Lemma read_ftyp_ok : forall j k, Sound j -> j_state k = 1 -> read_ftyp k (ftyp_body j) = Got (set_state (set_ftyp k (j_ftyp j)) 3).
Proof.
  intros j k SJ Ek. unfold read_ftyp. rewrite Ek. cbn [SIGNATURE Z.eqb Pos.eqb negb]. rewrite ftyp_len. pose proof (zlen_nonneg _ (f_cl (j_ftyp j))).
  destruct (Z.ltb_spec (8 + 4 * zlen (f_cl (j_ftyp j))) 8); [lia |]. unfold ftyp_body.
  rewrite !want_be by (try lia; apply SJ). rewrite words_len. change 3 with (Z.ones 2) at 1. rewrite Z.land_ones by lia.
  replace (4 * zlen (f_cl (j_ftyp j))) with (zlen (f_cl (j_ftyp j)) * 2 ^ 2) by (change (2 ^ 2) with 4; lia).
  rewrite Z.mod_mul by lia. cbn [Z.eqb negb]. rewrite Z.shiftr_div_pow2, Z.div_mul by lia. unfold zlen. rewrite Nat2Z.id.
  rewrite <- (app_nil_r (flat_map _ _)). rewrite read_words_ok by apply SJ. cbn [bind]. unfold set_ftyp. cbn [j_state]. rewrite Ek. destruct (j_ftyp j). reflexivity.
Qed.

(** The body of the header superbox. *)
Definition hdr_body (j : jp2) : list Z :=
  write_box IHDR (zlen (ihdr_body j)) ++ ihdr_body j ++
  (if i_bpc (j_ihdr j) =? 255 then write_box BPCC (zlen (j_bpcc j)) ++ j_bpcc j else []) ++
  write_box COLR (zlen (colr_body j)) ++ colr_body j ++
  (match j_cdef j with None => [] | Some l => write_box CDEF (zlen (cdef_body l)) ++ cdef_body l end).

Definition headed (k j : jp2) : jp2 :=
  let k := set_ihdr k (j_ihdr j) (length (j_bpcc j)) (i_bpc (j_ihdr j) =? 255, i_w (j_ihdr j), i_h (j_ihdr j)) in
  let k := if i_bpc (j_ihdr j) =? 255 then set_bpcc k (j_bpcc j) else k in
  let k := set_colour k (got_colour (j_colour j)) in
  match j_cdef j with None => k | Some l => set_cdef k l end.

Lemma nil_boxes : forall fuel i j, jp2h_boxes checks fuel i j [] = Got (i, j).
Proof. destruct fuel; reflexivity. Qed.

Lemma hdr_body_ok : forall j k fuel, Sound j -> 1 <= i_h (j_ihdr j) -> 1 <= i_w (j_ihdr j) -> 0 < c_meth (j_colour j) < 3 ->
  zlen (hdr_body j) < 2 ^ 32 -> (4 <= fuel)%nat ->
  j_bpcc k = [] -> j_colour k = mkColour 0 0 0 0 None 0 false -> j_cdef k = None ->
  jp2h_boxes checks fuel false k (hdr_body j) = Got (true, headed k j).
Proof.
  intros j k fuel SJ Hh Hw Hm Hs Hf K1 K2 K3.
  destruct fuel as [| f1]; [lia |]. destruct f1 as [| f2]; [lia |]. destruct f2 as [| f3]; [lia |]. destruct f3 as [| f4]; [lia |]. clear Hf.
  pose proof (zlen_nonneg _ (ihdr_body j)). pose proof (zlen_nonneg _ (j_bpcc j)). pose proof (zlen_nonneg _ (colr_body j)).
  assert (B1 : 8 + zlen (ihdr_body j) < 2 ^ 32).
  { unfold ihdr_body. rewrite !zlen_app, !zlen_be by lia. reflexivity. }
  assert (B2 : 8 + zlen (j_bpcc j) < 2 ^ 32) by (pose proof (s_comps _ SJ); lia).
  assert (B3 : 8 + zlen (colr_body j) < 2 ^ 32).
  { revert Hs. unfold hdr_body. rewrite !zlen_app, !zlen_write_box. destruct (i_bpc (j_ihdr j) =? 255), (j_cdef j) as [l |]; rewrite ?zlen_app, ?zlen_write_box; try pose proof (zlen_nonneg _ (cdef_body l)); unfold zlen in *; cbn [length] in *; lia. }
  unfold hdr_body. clear Hs. rewrite jp2h_step by (try exact B1; try reflexivity; unfold IHDR; lia).
  change (read_image checks IHDR k (ihdr_body j)) with (read_ihdr k (ihdr_body j)). rewrite read_ihdr_ok by assumption. cbn [bind orb]. rewrite Z.eqb_refl.
  unfold headed. set (k1 := set_ihdr k _ _ _).
  assert (G : forall fuel k2, j_colour k2 = mkColour 0 0 0 0 None 0 false -> j_cdef k2 = None ->
    jp2h_boxes checks (S (S fuel)) true k2
      (write_box COLR (zlen (colr_body j)) ++ colr_body j ++
       match j_cdef j with None => [] | Some l => write_box CDEF (zlen (cdef_body l)) ++ cdef_body l end) =
    Got (true, match j_cdef j with None => set_colour k2 (got_colour (j_colour j)) | Some l => set_cdef (set_colour k2 (got_colour (j_colour j))) l end)).
  { intros f k2 E1 E2. rewrite jp2h_step by (try exact B3; try reflexivity; unfold COLR; lia).
    change (read_image checks COLR k2 (colr_body j)) with (read_colr k2 (colr_body j)). rewrite read_colr_ok by assumption. cbn [bind orb].
    destruct (j_cdef j) as [l |] eqn:El; [| apply nil_boxes].
    destruct (s_cdef _ SJ l El) as (Hn & Hd & Hl). rewrite <- (app_nil_r (cdef_body l)) at 2.
    rewrite jp2h_step by (try reflexivity; try (rewrite cdef_len; pose proof (zlen_nonneg _ l); lia); unfold CDEF; lia).
    change (read_image checks CDEF ?a (cdef_body l)) with (read_cdef a (cdef_body l)).
    rewrite (read_cdef_ok j) by (assumption || exact E2). cbn [bind orb]. apply nil_boxes. }
  destruct (i_bpc (j_ihdr j) =? 255) eqn:E255.
  - rewrite <- app_assoc. rewrite jp2h_step by (try exact B2; try reflexivity; unfold BPCC; lia).
    change (read_image checks BPCC k1 (j_bpcc j)) with (read_bpcc k1 (j_bpcc j)).
    rewrite read_bpcc_ok by (try assumption; unfold k1, zlen; cbn [set_ihdr j_bpcc]; rewrite repeat_length; reflexivity). cbn [bind orb].
    rewrite G by assumption. reflexivity.
  - cbn [app]. rewrite G by assumption. reflexivity.
Qed.

Lemma jp2h_bytes : forall j b, Sound j -> 0 < c_meth (j_colour j) < 3 -> write_jp2h j = Got b -> zlen b < 2 ^ 32 ->
  8 + zlen (colr_body j) < 2 ^ 32 -> b = write_box JP2H (zlen (hdr_body j)) ++ hdr_body j.
Proof.
  intros j b SJ Hm W Hs Hc. unfold write_jp2h in W. rewrite colr_bytes in W by assumption. cbn [bind] in W.
  assert (E : match j_cdef j with None => Got [] | Some _ => write_cdef j end =
              Got (match j_cdef j with None => [] | Some l => write_box CDEF (zlen (cdef_body l)) ++ cdef_body l end)).
  { destruct (j_cdef j) as [l |] eqn:El; [apply cdef_bytes; assumption | reflexivity]. }
  rewrite E in W. cbn [bind] in W. rewrite ihdr_bytes, bpcc_bytes in W by assumption.
  assert (W' : b = write_box JP2H (zlen (hdr_body j)) ++ hdr_body j).
  { unfold hdr_body. rewrite <- !app_assoc in W. congruence. }
  exact W'.
Qed.

Lemma written_parts : forall j cs f, Sound j -> 0 < c_meth (j_colour j) < 3 -> write_file false j cs = Got f -> zlen f < 2 ^ 32 ->
  f = write_box JP (zlen (be 4 MAGIC)) ++ be 4 MAGIC ++ write_box FTYP (zlen (ftyp_body j)) ++ ftyp_body j ++
      write_box JP2H (zlen (hdr_body j)) ++ hdr_body j ++ write_box JP2C (zlen cs) ++ cs /\
  zlen f = 12 + (8 + zlen (ftyp_body j)) + (8 + zlen (hdr_body j)) + 8 + zlen cs /\ 8 + zlen (colr_body j) < 2 ^ 32 /\
  4 <= zlen (hdr_body j).
Proof.
  intros j cs f SJ Hm W Hs. unfold write_file in W. destruct (validate j) eqn:V; [| discriminate]. cbn [negb] in W.
  unfold validate in V. rewrite !andb_true_iff in V. destruct V as (((((((V1 & V2) & V3) & V4) & V5) & V6) & V7) & V8).
  apply Z.ltb_lt in V4, V5, V7, V8.
  assert (Hc : 8 + zlen (colr_body j) < 2 ^ 32).
  { destruct (Z.ltb_spec (8 + zlen (colr_body j)) (2 ^ 32)) as [| Hge]; [assumption | exfalso].
    destruct (write_jp2h j) as [b | |] eqn:Wb; [| discriminate | discriminate]. cbn [bind] in W.
    assert (Lb : zlen b <= zlen f).
    { assert (f = write_jp ++ write_ftyp j ++ b ++ [] ++ write_box JP2C (zlen cs) ++ cs) as -> by congruence. rewrite !zlen_app.
      pose proof (zlen_nonneg _ write_jp). pose proof (zlen_nonneg _ (write_ftyp j)). pose proof (zlen_nonneg _ (write_box JP2C (zlen cs))).
      pose proof (zlen_nonneg _ cs). change (zlen (@nil Z)) with 0. lia. }
    unfold write_jp2h in Wb. destruct (write_colr j) as [c | |] eqn:Wc; [| discriminate | discriminate]. cbn [bind] in Wb.
    assert (Lc : zlen c = 8 + zlen (colr_body j)).
    { revert Wc. unfold write_colr, u8. rewrite !Z.mod_small by first [lia | apply SJ].
      destruct (negb ((c_meth (j_colour j) =? 1) || (c_meth (j_colour j) =? 2))); [intros Q; discriminate Q |]. destruct ((c_meth (j_colour j) =? 2) && _); [intros Q; discriminate Q |]. intros Wc.
      assert (c = write_box COLR (u32 (3 + (if c_meth (j_colour j) =? 1 then 4 else c_icc_len (j_colour j)))) ++ colr_body j) as ->.
      { unfold colr_body. congruence. }
      rewrite zlen_app, zlen_write_box. reflexivity. }
    destruct (match j_cdef j with None => Got [] | Some _ => write_cdef j end) as [x | |]; [| discriminate | discriminate]. cbn [bind] in Wb.
    assert (Lx : zlen c <= zlen b).
    { set (body := write_ihdr j ++ (if i_bpc (j_ihdr j) =? 255 then write_bpcc j else []) ++ c ++ x) in Wb.
      assert (b = write_box JP2H (zlen body) ++ body) as -> by congruence. unfold body at 2. rewrite !zlen_app.
      pose proof (zlen_nonneg _ (write_box JP2H (zlen body))). pose proof (zlen_nonneg _ (write_ihdr j)).
      pose proof (zlen_nonneg _ (if i_bpc (j_ihdr j) =? 255 then write_bpcc j else [])). pose proof (zlen_nonneg _ x). lia. }
    lia. }
  destruct (write_jp2h j) as [b | |] eqn:Wb; [| discriminate | discriminate]. cbn [bind] in W.
  assert (Ef : f = write_jp ++ write_ftyp j ++ b ++ write_box JP2C (zlen cs) ++ cs) by (cbn [app] in W; congruence). clear W.
  assert (Lf : zlen f = 12 + zlen (write_ftyp j) + zlen b + 8 + zlen cs).
  { rewrite Ef, !zlen_app, zlen_write_box. unfold write_jp. rewrite zlen_app, zlen_write_box, zlen_be by lia. lia. }
  assert (Lt : zlen (write_ftyp j) = 8 + zlen (ftyp_body j)).
  { unfold write_ftyp. rewrite zlen_app, zlen_write_box. reflexivity. }
  pose proof (zlen_nonneg _ (write_ftyp j)). pose proof (zlen_nonneg _ b). pose proof (zlen_nonneg _ cs).
  assert (Eb := jp2h_bytes j b SJ ltac:(lia) Wb ltac:(lia) Hc).
  assert (Lb : zlen b = 8 + zlen (hdr_body j)) by (rewrite Eb, zlen_app, zlen_write_box; reflexivity).
  rewrite ftyp_bytes in Ef by lia. rewrite Eb in Ef. unfold write_jp in Ef. change 4 with (zlen (be 4 MAGIC)) in Ef at 1. rewrite <- !app_assoc in Ef.
  split; [exact Ef |]. split; [lia |]. split; [exact Hc |].
  unfold hdr_body; rewrite !zlen_app, zlen_write_box;
    repeat match goal with |- context [zlen ?l] => lazymatch l with _ => pose proof (zlen_nonneg _ l); generalize dependent (zlen l); intros end end; lia.
Qed.

Theorem trip : forall j cs f, Sound j -> write_file false j cs = Got f -> zlen f < 2 ^ 32 ->
  read_header checks f = Got (received j, cs).
Proof.
  intros j cs f SJ W Hs. assert (W0 := W). unfold write_file in W. destruct (validate j) eqn:V; [| discriminate]. cbn [negb] in W.
  unfold validate in V. rewrite !andb_true_iff in V. destruct V as (((((((V1 & V2) & V3) & V4) & V5) & V6) & V7) & V8).
  apply Z.ltb_lt in V4, V5, V7, V8. destruct (written_parts j cs f SJ ltac:(lia) W0 Hs) as (Ef & Lf & Hc & Hb4). clear W W0.
  pose proof (zlen_nonneg _ (ftyp_body j)). pose proof (zlen_nonneg _ (hdr_body j)). pose proof (zlen_nonneg _ cs).
  unfold read_header.
  assert (F : exists n, length f = S (S (S n))).
  { destruct (length f) as [| [| [| n]]] eqn:Q; [unfold zlen in Lf; rewrite Q in Lf; lia .. | exists n; reflexivity]. }
  destruct F as (n & F). rewrite F. rewrite Ef.
  rewrite top_step by (try reflexivity; unfold JP; lia).
  change (read_content checks JP created (be 4 MAGIC)) with (Got (set_state created 1)). cbn [bind].
  rewrite top_step by (try reflexivity; try lia; unfold FTYP; lia).
  change (read_content checks FTYP ?a (ftyp_body j)) with (read_ftyp a (ftyp_body j)). rewrite read_ftyp_ok by (assumption || reflexivity). cbn [bind].
  rewrite top_step by (try reflexivity; try lia; unfold JP2H; lia).
  change (read_content checks JP2H ?a (hdr_body j)) with (read_jp2h checks a (hdr_body j)). unfold read_jp2h.
  change (negb (has (j_state (set_state (set_ftyp (set_state created 1) (j_ftyp j)) 3)) FILE_TYPE)) with false. cbv iota.
  rewrite hdr_body_ok; try assumption; try reflexivity; try lia.
  2: { unfold zlen in *. lia. }
  cbn [bind negb].
  rewrite codestream_step; [| lia | lia |].
  - cbn [bind]. unfold headed, received, got_colour.
    destruct (i_bpc (j_ihdr j) =? 255), (j_cdef j), (c_meth (j_colour j) =? 1), (c_enumcs (j_colour j) =? 14); reflexivity.
  - unfold headed. destruct (i_bpc (j_ihdr j) =? 255), (j_cdef j); reflexivity.
Qed.

End Checks.
