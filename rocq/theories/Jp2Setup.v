(** What the encoder writes about an image. *)

From Coq Require Import ZArith List Bool Lia.
From Verif Require Import Ints CioModel CioProps HdrBytes Jp2Model Jp2Read Jp2Trip.
From Verif Require HdrModel Jp2Spec.
Import ListNotations.
Local Open Scope Z_scope.

(** * Bytes *)

Lemma field4 : forall v, Jp2Spec.field 4 v = be 4 v.
Proof.
  intros. unfold Jp2Spec.field, be, HdrModel.be, to_be4. cbn [seq rev app map skipn Nat.sub]. rewrite !byte_eq by lia. reflexivity.
Qed.
Lemma field2 : forall v, Jp2Spec.field 2 v = be 2 v.
Proof.
  intros. unfold Jp2Spec.field, be, HdrModel.be, to_be4. cbn [seq rev app map skipn Nat.sub]. rewrite !byte_eq by lia. reflexivity.
Qed.
Lemma boxed_eq : forall t c, 8 + zlen c < 2 ^ 32 -> Jp2Spec.boxed t c = write_box t (zlen c) ++ c.
Proof.
  intros t c H. unfold Jp2Spec.boxed, write_box. rewrite !field4. change (Jp2Spec.size c) with (zlen c). pose proof (zlen_nonneg _ c).
  rewrite u32_id by lia. rewrite <- app_assoc. reflexivity.
Qed.

(** * The image as the standard describes it *)

(** An image the encoder can describe: coordinates of a non-empty area, 1 to
    16384 components of 1 to 38 bits, no colour profile. *)
Definition channel_fits (c : channel) : Prop := 1 <= ch_prec c <= 38 /\ (ch_sgnd c = 0 \/ ch_sgnd c = 1).
Record Ordinary (im : image) : Prop := {
  o_x : 0 <= im_x0 im < im_x1 im; o_x1 : im_x1 im < 2 ^ 32;
  o_y : 0 <= im_y0 im < im_y1 im; o_y1 : im_y1 im < 2 ^ 32;
  o_n : 1 <= zlen (im_comps im) <= 16384; o_comps : Forall channel_fits (im_comps im) }.

Definition kind (c : channel) : Z * bool := (ch_prec c, negb (ch_sgnd c =? 0)).
Definition enumerated (s : Z) : Z := if s =? 1 then 16 else if s =? 2 then 17 else if s =? 3 then 18 else 0.
Definition same_depths (l : list channel) : bool := Jp2Spec.all_same (map ch_prec l).
Definition described (im : image) : Jp2Spec.header :=
  Jp2Spec.mkHeader (im_y1 im - im_y0 im) (im_x1 im - im_x0 im) (zlen (im_comps im))
    (if same_depths (im_comps im) then hd 0 (map (fun c => Jp2Spec.bits (kind c)) (im_comps im)) else 255)
    (map (fun c => Jp2Spec.bits (kind c)) (im_comps im))
    (Jp2Spec.Enumerated (enumerated (im_space im)))
    (match colours (enumerated (im_space im)) (im_comps im) with
     | None => []
     | Some n => map (fun p => let d := make_def n p in (d_cn d, d_typ d, d_asoc d)) (combine (seq 0 (length (im_comps im))) (im_comps im))
     end).

Lemma bits_of : forall c, channel_fits c -> u32 (u32 (ch_prec c - 1) + u32 (Z.shiftl (ch_sgnd c) 7)) = Jp2Spec.bits (kind c) /\ 0 <= Jp2Spec.bits (kind c) < 256.
Proof.
  intros c (P & S0). unfold Jp2Spec.bits, kind. cbn [fst snd]. destruct S0 as [-> | ->]; cbn [Z.eqb negb].
  - change (Z.shiftl 0 7) with 0. rewrite (u32_id 0) by lia. rewrite (u32_id (ch_prec c - 1)) by lia. rewrite u32_id by lia. lia.
  - change (Z.shiftl 1 7) with 128. rewrite (u32_id 128) by lia. rewrite (u32_id (ch_prec c - 1)) by lia. rewrite u32_id by lia. lia.
Qed.

Lemma depth_fold : forall d0 l b, 1 <= d0 <= 38 -> Forall channel_fits l ->
  fold_left (fun b c => if negb (u32 (d0 - 1) =? u32 (ch_prec c - 1)) then 255 else b) l b = if forallb (Z.eqb d0) (map ch_prec l) then b else 255.
Proof.
  intros d0. induction l as [| c l IH]; intros b H F; [reflexivity |]. inversion F as [| ? ? (Pc & _) Fl]; subst. cbn [fold_left map forallb]. rewrite IH by assumption.
  rewrite !u32_id by lia. destruct (Z.eqb_spec (d0 - 1) (ch_prec c - 1)); destruct (Z.eqb_spec d0 (ch_prec c)); try lia; cbn [negb andb]; destruct (forallb _ _); reflexivity.
Qed.

Definition header_of (j : jp2) : Jp2Spec.header :=
  Jp2Spec.mkHeader (i_h (j_ihdr j)) (i_w (j_ihdr j)) (zlen (j_bpcc j)) (i_bpc (j_ihdr j)) (j_bpcc j)
    (if c_meth (j_colour j) =? 1 then Jp2Spec.Enumerated (c_enumcs (j_colour j)) else Jp2Spec.Profile (match c_icc (j_colour j) with Some l => l | None => [] end))
    (match j_cdef j with None => [] | Some l => map (fun d => (d_cn d, d_typ d, d_asoc d)) l end).

(** What [setup_encoder] makes of the image, when there is no profile. *)
Definition prepared (im : image) : jp2 :=
  mkJp2 (mkIhdr (im_y1 im - im_y0 im) (im_x1 im - im_x0 im) (Jp2Spec.depth (described im)) 7 0 0) (Jp2Spec.depths (described im))
    (mkColour (if im_icc_len im =? 0 then 1 else 2) 0 0 (if im_icc_len im =? 0 then enumerated (im_space im) else 0) None 0 false)
    (match colours (if im_icc_len im =? 0 then enumerated (im_space im) else 0) (im_comps im) with
     | None => None
     | Some n => Some (map (make_def n) (combine (seq 0 (length (im_comps im))) (im_comps im)))
     end) None (mkFtyp JP2 0 [JP2]) 0 0 false false (false, 0, 0).
Theorem setup_prepared : forall im, Ordinary im -> setup_encoder im = Got (prepared im).
Proof.
  intros im O. unfold setup_encoder. pose proof (o_n _ O) as Hn. pose proof (o_comps _ O) as F. pose proof (o_x _ O). pose proof (o_x1 _ O). pose proof (o_y _ O). pose proof (o_y1 _ O).
  destruct (Z.ltb_spec (zlen (im_comps im)) 1); [lia |]. destruct (Z.ltb_spec 16384 (zlen (im_comps im))); [lia |]. cbn [orb].
  destruct (im_comps im) as [| c0 l] eqn:El; [unfold zlen in Hn; cbn [length] in Hn; lia |]. inversion F as [| ? ? F0 Fl]; subst.
  destruct (bits_of c0 F0) as [B0 _]. rewrite B0. rewrite depth_fold; [| apply F0 | exact Fl].
  rewrite (u32_id (im_y1 im - im_y0 im)) by lia. rewrite (u32_id (im_x1 im - im_x0 im)) by lia.
  unfold prepared, described. rewrite El. cbn [Jp2Spec.depth Jp2Spec.depths]. unfold same_depths, Jp2Spec.all_same. cbn [map hd].
  assert (M : map (fun c => u32 (u32 (ch_prec c - 1) + u32 (Z.shiftl (ch_sgnd c) 7))) l = map (fun c => Jp2Spec.bits (kind c)) l).
  { apply map_ext_in. intros c Hc. apply bits_of. apply (proj1 (Forall_forall _ _) Fl c Hc). }
  rewrite M, B0. unfold enumerated. destruct (im_icc_len im =? 0); cbn [negb]; reflexivity.
Qed.

Lemma make_def_ok : forall n p, def_ok (make_def n p).
Proof.
  intros n [i c]. unfold make_def. cbn [fst snd]. cbv zeta. unfold def_ok, u16.
  pose proof (Z.mod_pos_bound (Z.of_nat i) 65536 eq_refl). pose proof (Z.mod_pos_bound (Z.of_nat i + 1) 65536 eq_refl).
  destruct (Z.of_nat i <? n); [| destruct (negb (ch_alpha c =? 0))]; cbn [d_cn d_typ d_asoc]; lia.
Qed.

Lemma bits_all : forall l, Forall channel_fits l -> Forall octet (map (fun c => Jp2Spec.bits (kind c)) l).
Proof.
  intros l F. apply Forall_forall. intros b Hb. apply in_map_iff in Hb. destruct Hb as (c & <- & Hc). apply bits_of. apply (proj1 (Forall_forall _ _) F c Hc).
Qed.

Lemma prepared_sound : forall im, Ordinary im -> im_icc_len im = 0 -> Sound (prepared im).
Proof.
  intros im O Hi. pose proof (o_n _ O) as Hn. pose proof (o_comps _ O) as F. pose proof (o_x _ O). pose proof (o_x1 _ O). pose proof (o_y _ O). pose proof (o_y1 _ O).
  assert (Lb : zlen (Jp2Spec.depths (described im)) = zlen (im_comps im)) by (unfold zlen; cbn [described Jp2Spec.depths]; rewrite map_length; reflexivity).
  assert (Fb := bits_all _ F).
  assert (Hd : octet (Jp2Spec.depth (described im))).
  { cbn [described Jp2Spec.depth]. destruct (same_depths (im_comps im)); [| unfold octet; lia]. inversion Fb as [| b bs Hb Hbs E]; cbn [hd]; [unfold octet; lia | exact Hb]. }
  constructor; unfold prepared; rewrite ?Hi; cbn [j_ihdr j_bpcc j_colour j_cdef j_ftyp i_h i_w i_bpc i_c i_unkc i_ipr c_meth c_precedence c_approx c_enumcs c_icc c_icc_len f_brand f_minv f_cl Z.eqb];
    try (unfold octet; lia).
  - exact Hd.
  - exact Fb.
  - unfold enumerated. destruct (im_space im =? 1), (im_space im =? 2), (im_space im =? 3); lia.
  - intros l E. destruct (colours (enumerated (im_space im)) (im_comps im)) as [n |]; [| discriminate].
    set (q := combine (seq 0 (length (im_comps im))) (im_comps im)) in *. assert (l = map (make_def n) q) as -> by congruence.
    assert (Lq : length q = length (im_comps im)) by (unfold q; rewrite combine_length, seq_length; lia). unfold zlen in *. split; [| split].
    + intros Q. assert (Z0 : length (map (make_def n) q) = 0%nat) by (rewrite Q; reflexivity). rewrite map_length in Z0. lia.
    + apply Forall_forall. intros d Hd'. apply in_map_iff in Hd'. destruct Hd' as ([i c] & <- & Hp). apply make_def_ok.
    + rewrite map_length. lia.
  - unfold is_u32, JP2. lia.
  - unfold is_u32. lia.
  - constructor; [unfold is_u32, JP2; lia | constructor].
Qed.

Lemma prepared_valid : forall im, Ordinary im -> validate (prepared im) = true.
Proof.
  intros im O. pose proof (o_comps _ O) as F. pose proof (o_x _ O). pose proof (o_y _ O).
  unfold validate, prepared. cbn [j_state j_img j_ftyp f_cl is_nil j_ihdr i_h i_w j_bpcc j_colour c_meth Z.eqb negb andb].
  destruct (Z.ltb_spec 0 (im_y1 im - im_y0 im)); [| lia]. destruct (Z.ltb_spec 0 (im_x1 im - im_x0 im)); [| lia].
  assert (E : forallb (fun b => Z.land b 127 <? 38) (Jp2Spec.depths (described im)) = true).
  { apply forallb_forall. intros b Hb. cbn [described Jp2Spec.depths] in Hb. apply in_map_iff in Hb. destruct Hb as (c & <- & Hc).
    pose proof (proj1 (Forall_forall _ _) F c Hc) as (P & _). apply Z.ltb_lt. change 127 with (Z.ones 7). rewrite Z.land_ones by lia. change (2 ^ 7) with 128.
    unfold Jp2Spec.bits, kind. cbn [fst snd]. destruct (negb (ch_sgnd c =? 0)).
    - replace (ch_prec c - 1 + 128) with (ch_prec c - 1 + 1 * 128) by lia. rewrite Z.mod_add by lia. rewrite Z.mod_small; lia.
    - rewrite Z.add_0_r, Z.mod_small; lia. }
  rewrite E. cbn [andb]. destruct (im_icc_len im =? 0); reflexivity.
Qed.

(** * The bytes of a header are those of Annex I *)

Lemma flat_field4 : forall l, flat_map (Jp2Spec.field 4) l = flat_map (be 4) l.
Proof. induction l as [| v l IH]; [reflexivity |]. cbn [flat_map]. rewrite field4, IH. reflexivity. Qed.

Theorem layout : forall j cs f, Sound j -> write_file false j cs = Got f -> zlen f < 2 ^ 32 ->
  i_c (j_ihdr j) = 7 -> i_unkc (j_ihdr j) = 0 -> i_ipr (j_ihdr j) = 0 -> c_precedence (j_colour j) = 0 -> c_approx (j_colour j) = 0 ->
  f = Jp2Spec.signature ++ Jp2Spec.file_type (f_brand (j_ftyp j)) (f_minv (j_ftyp j)) (f_cl (j_ftyp j)) ++ Jp2Spec.jp2_header (header_of j) ++ Jp2Spec.boxed Jp2Spec.t_jp2c cs.
Proof.
  intros j cs f SJ W Hs H7 Hu Hp Hq Ha. assert (W0 := W). unfold write_file in W. destruct (validate j) eqn:V; [| discriminate]. cbn [negb] in W.
  unfold validate in V. rewrite !andb_true_iff in V. destruct V as (((((((V1 & V2) & V3) & V4) & V5) & V6) & V7) & V8).
  apply Z.ltb_lt in V4, V5, V7, V8.
  destruct (written_parts j cs f SJ ltac:(lia) W0 Hs) as (Ef & Lf & Hc & Hb).
  rewrite Ef. pose proof (zlen_nonneg _ cs). pose proof (zlen_nonneg _ (ftyp_body j)). pose proof (zlen_nonneg _ (hdr_body j)).
  assert (E1 : Jp2Spec.signature = write_box JP (zlen (be 4 MAGIC)) ++ be 4 MAGIC) by reflexivity.
  assert (E2 : Jp2Spec.file_type (f_brand (j_ftyp j)) (f_minv (j_ftyp j)) (f_cl (j_ftyp j)) = write_box FTYP (zlen (ftyp_body j)) ++ ftyp_body j).
  { unfold Jp2Spec.file_type. rewrite !field4, flat_field4. rewrite boxed_eq by (fold (ftyp_body j); lia). reflexivity. }
  assert (E3 : Jp2Spec.boxed Jp2Spec.t_jp2c cs = write_box JP2C (zlen cs) ++ cs) by (rewrite boxed_eq by lia; reflexivity).
  assert (E4 : Jp2Spec.jp2_header (header_of j) = write_box JP2H (zlen (hdr_body j)) ++ hdr_body j).
  { unfold Jp2Spec.jp2_header.
    assert (B : Jp2Spec.image_header (header_of j) ++ Jp2Spec.bits_per_component (header_of j) ++ Jp2Spec.colour_specification (header_of j) ++ Jp2Spec.channel_definition (header_of j) = hdr_body j).
    { unfold hdr_body. pose proof (zlen_nonneg _ (colr_body j)).
      assert (B1 : Jp2Spec.image_header (header_of j) = write_box IHDR (zlen (ihdr_body j)) ++ ihdr_body j).
      { assert (E : ihdr_body j = Jp2Spec.field 4 (Jp2Spec.height (header_of j)) ++ Jp2Spec.field 4 (Jp2Spec.width (header_of j)) ++ Jp2Spec.field 2 (Jp2Spec.components (header_of j)) ++ [Jp2Spec.depth (header_of j); 7; 0; 0]).
        { rewrite !field4, field2. unfold ihdr_body. rewrite H7, Hu, Hp. reflexivity. }
        unfold Jp2Spec.image_header. rewrite <- E. apply boxed_eq. unfold ihdr_body. rewrite !zlen_app, !zlen_be by lia. reflexivity. }
      assert (B2 : Jp2Spec.bits_per_component (header_of j) = if i_bpc (j_ihdr j) =? 255 then write_box BPCC (zlen (j_bpcc j)) ++ j_bpcc j else []).
      { unfold Jp2Spec.bits_per_component. cbn [header_of Jp2Spec.depth Jp2Spec.depths]. destruct (i_bpc (j_ihdr j) =? 255); [| reflexivity].
        rewrite boxed_eq by (pose proof (s_comps _ SJ); lia). reflexivity. }
      assert (B3 : Jp2Spec.colour_specification (header_of j) = write_box COLR (zlen (colr_body j)) ++ colr_body j).
      { unfold Jp2Spec.colour_specification. cbn [header_of Jp2Spec.colours].
        assert (E : (match (if c_meth (j_colour j) =? 1 then Jp2Spec.Enumerated (c_enumcs (j_colour j)) else Jp2Spec.Profile (match c_icc (j_colour j) with Some l => l | None => [] end)) with
                     | Jp2Spec.Enumerated e => [1; 0; 0] ++ Jp2Spec.field 4 e | Jp2Spec.Profile l => [2; 0; 0] ++ l end) = colr_body j).
        { unfold colr_body. rewrite Hq, Ha. assert (M : c_meth (j_colour j) = 1 \/ c_meth (j_colour j) = 2) by lia.
          destruct M as [-> | ->]; cbn [Z.eqb Pos.eqb]; [rewrite field4; reflexivity | reflexivity]. }
        rewrite E. apply boxed_eq. exact Hc. }
      assert (B4 : Jp2Spec.channel_definition (header_of j) = match j_cdef j with None => [] | Some l => write_box CDEF (zlen (cdef_body l)) ++ cdef_body l end).
      { unfold Jp2Spec.channel_definition. cbn [header_of Jp2Spec.channels]. destruct (j_cdef j) as [l |] eqn:El; [| reflexivity].
        destruct (s_cdef _ SJ l El) as (Hn & _ & Hl).
        assert (E : Jp2Spec.field 2 (Jp2Spec.size (map (fun d => (d_cn d, d_typ d, d_asoc d)) l)) ++
                    flat_map (fun '(cn, typ, asoc) => Jp2Spec.field 2 cn ++ Jp2Spec.field 2 typ ++ Jp2Spec.field 2 asoc) (map (fun d => (d_cn d, d_typ d, d_asoc d)) l) = cdef_body l).
        { unfold cdef_body, Jp2Spec.size. rewrite map_length, field2. f_equal. clear. induction l as [| d l IH]; [reflexivity |].
          cbn [map flat_map]. rewrite IH, !field2. reflexivity. }
        destruct l as [| d l]; [congruence |]. cbn [map] in E |- *. rewrite E. apply boxed_eq. rewrite cdef_len. lia. }
      rewrite B1, B2, B3, B4. rewrite <- !app_assoc. destruct (i_bpc (j_ihdr j) =? 255); rewrite <- ?app_assoc; reflexivity. }
    rewrite B. apply boxed_eq. lia. }
  rewrite E1, E2, E3, E4. rewrite <- !app_assoc. reflexivity.
Qed.
