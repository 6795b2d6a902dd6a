(** The JP2 file format layer: properties C32 and C51 to C55. *)

From Coq Require Import ZArith List Bool Lia.
From Verif Require Import Ints CioModel CioProps HdrBytes Jp2Model Jp2Read Jp2Trip Jp2Safe Jp2Order Jp2Post Jp2Setup.
From Verif Require HdrModel Jp2Spec.
Import ListNotations.
Local Open Scope Z_scope.

(** * C32: files written *)

(** What is written around a code-stream for an image. *)
Definition encode (jpip : bool) (im : image) (cs : list Z) : res (list Z) := bind (setup_encoder im) (fun j => write_file jpip j cs).

Lemma written : forall im, Ordinary im -> im_icc_len im = 0 -> exists a, (forall cs, encode false im cs = Got (a ++ write_box JP2C (zlen cs) ++ cs)) /\
  a = Jp2Spec.signature ++ Jp2Spec.file_type Jp2Spec.jp2_brand 0 [Jp2Spec.jp2_brand] ++ Jp2Spec.jp2_header (described im).
Proof.
  intros im O Hi. assert (SJ := prepared_sound im O Hi). assert (V := prepared_valid im O). set (j := prepared im) in *.
  assert (M : c_meth (j_colour j) = 1) by (unfold j, prepared; rewrite Hi; reflexivity).
  assert (Hc : zlen (colr_body j) = 7) by (unfold colr_body; rewrite M; cbn [Z.eqb Pos.eqb]; rewrite zlen_app, zlen_be by lia; reflexivity).
  assert (W : exists b, write_jp2h j = Got b /\ zlen b < 2 ^ 31).
  { unfold write_jp2h. rewrite colr_bytes by (try exact SJ; rewrite ?M, ?Hc; lia). cbn [bind].
    assert (E : match j_cdef j with None => Got [] | Some _ => write_cdef j end =
                Got (match j_cdef j with None => [] | Some l => write_box CDEF (zlen (cdef_body l)) ++ cdef_body l end)).
    { destruct (j_cdef j) as [l |] eqn:El; [apply cdef_bytes; assumption | reflexivity]. }
    rewrite E. cbn [bind]. eexists. split; [reflexivity |]. rewrite zlen_app, zlen_write_box, ihdr_bytes, bpcc_bytes by assumption. rewrite !zlen_app, !zlen_write_box, Hc.
    assert (L1 : zlen (ihdr_body j) = 14) by (unfold ihdr_body; rewrite !zlen_app, !zlen_be by lia; reflexivity). rewrite L1.
    pose proof (s_comps _ SJ) as Hn.
    assert (L2 : zlen (if i_bpc (j_ihdr j) =? 255 then write_box BPCC (zlen (j_bpcc j)) ++ j_bpcc j else []) <= 16392).
    { destruct (i_bpc (j_ihdr j) =? 255); [rewrite zlen_app, zlen_write_box; lia | unfold zlen; cbn [length]; lia]. }
    assert (L3 : zlen (match j_cdef j with None => [] | Some l => write_box CDEF (zlen (cdef_body l)) ++ cdef_body l end) <= 400000).
    { destruct (j_cdef j) as [l |] eqn:El; [| unfold zlen; cbn [length]; lia]. destruct (s_cdef _ SJ l El) as (_ & _ & Hl). rewrite zlen_app, zlen_write_box, cdef_len. lia. }
    lia. }
  destruct W as (b & Wb & Lb). exists (write_jp ++ write_ftyp j ++ b). split.
  - intros cs. unfold encode. rewrite setup_prepared by exact O. cbn [bind]. fold j. unfold write_file. rewrite V. cbn [negb]. rewrite Wb. cbn [bind app]. rewrite <- !app_assoc. reflexivity.
  - assert (W0 : write_file false j [] = Got (write_jp ++ write_ftyp j ++ b ++ [] ++ write_box JP2C 0 ++ [])) by (unfold write_file; rewrite V, Wb; reflexivity).
    assert (L0 : zlen (write_jp ++ write_ftyp j ++ b ++ [] ++ write_box JP2C 0 ++ []) < 2 ^ 32).
    { rewrite !zlen_app, zlen_write_box. change (zlen (A := Z) []) with 0. change (zlen write_jp) with 12. change (zlen (write_ftyp j)) with 20. lia. }
    pose proof (layout j [] _ SJ W0 L0 eq_refl eq_refl eq_refl eq_refl eq_refl) as Q.
    change (Jp2Spec.boxed Jp2Spec.t_jp2c []) with (write_box JP2C 0) in Q. rewrite app_nil_r in Q. cbn [app] in Q. rewrite !app_assoc in Q. apply app_inv_tail in Q.
    rewrite <- !app_assoc in Q. rewrite Q.
    assert (H : header_of j = described im).
    { unfold header_of. rewrite M. unfold j, prepared, described. rewrite Hi. cbn [Z.eqb Pos.eqb j_ihdr j_bpcc i_h i_w i_bpc j_colour c_enumcs j_cdef Jp2Spec.depth Jp2Spec.depths].
      f_equal.
      - unfold zlen. rewrite map_length. reflexivity.
      - destruct (colours (enumerated (im_space im)) (im_comps im)); [| reflexivity]. rewrite map_map. reflexivity. }
    rewrite H. reflexivity.
Qed.

(** The boxes, their order and their contents are those of Annex I. *)
Theorem c32_layout : forall im cs, Ordinary im -> im_icc_len im = 0 -> 8 + Jp2Spec.size cs < 2 ^ 32 ->
  encode false im cs = Got (Jp2Spec.file (described im) cs).
Proof.
  intros im cs O Hi Hs. destruct (written im O Hi) as (a & W & Ea). rewrite W. unfold Jp2Spec.file. rewrite boxed_eq by exact Hs. rewrite Ea, <- !app_assoc. reflexivity.
Qed.
(** A code-stream of 2^32 - 8 bytes or more gets a box with the wrong length. *)
Theorem c32_length_refuted : forall im cs, Ordinary im -> im_icc_len im = 0 -> 2 ^ 32 <= 8 + Jp2Spec.size cs -> exists a k,
  encode false im cs = Got (a ++ Jp2Spec.field 4 k ++ Jp2Spec.field 4 Jp2Spec.t_jp2c ++ cs) /\ k = (8 + Jp2Spec.size cs) mod 2 ^ 32 /\ k <> 8 + Jp2Spec.size cs.
Proof.
  intros im cs O Hi Hs. destruct (written im O Hi) as (a & W & _). exists a, ((8 + Jp2Spec.size cs) mod 2 ^ 32). split; [| split; [reflexivity |]].
  - rewrite W, !field4. unfold write_box, u32. rewrite <- !app_assoc. reflexivity.
  - pose proof (Z.mod_pos_bound (8 + Jp2Spec.size cs) (2 ^ 32) eq_refl). lia.
Qed.

(** Any header that fits its fields is read back, with the code-stream. *)
Theorem c32_any_header : forall checks j cs f, Sound j -> write_file false j cs = Got f -> Jp2Spec.size f < 2 ^ 32 -> read_header checks f = Got (received j, cs).
Proof. exact trip. Qed.

Theorem c32_round_trip : forall checks im cs, Ordinary im -> im_icc_len im = 0 -> Jp2Spec.size (Jp2Spec.file (described im) cs) < 2 ^ 32 -> exists f j,
  encode false im cs = Got f /\ read_header checks f = Got (j, cs) /\
  i_h (j_ihdr j) = im_y1 im - im_y0 im /\ i_w (j_ihdr j) = im_x1 im - im_x0 im /\ zlen (j_bpcc j) = zlen (im_comps im) /\
  i_bpc (j_ihdr j) = Jp2Spec.depth (described im) /\ (i_bpc (j_ihdr j) = 255 -> j_bpcc j = Jp2Spec.depths (described im)) /\
  c_meth (j_colour j) = 1 /\ Jp2Spec.Enumerated (c_enumcs (j_colour j)) = Jp2Spec.colours (described im) /\
  (match j_cdef j with None => [] | Some l => map (fun d => (d_cn d, d_typ d, d_asoc d)) l end) = Jp2Spec.channels (described im) /\ j_pclr j = None.
Proof.
  intros checks im cs O Hi Hs. assert (SJ := prepared_sound im O Hi).
  assert (H8 : 8 + Jp2Spec.size cs < 2 ^ 32).
  { revert Hs. unfold Jp2Spec.file, Jp2Spec.size. rewrite !app_length. unfold Jp2Spec.boxed at 1. rewrite !app_length, !field4, !be_len by lia. change (length Jp2Spec.signature) with 12%nat. lia. }
  assert (E := c32_layout im cs O Hi H8). exists (Jp2Spec.file (described im) cs), (received (prepared im)). split; [exact E |].
  unfold encode in E. rewrite setup_prepared in E by exact O. cbn [bind] in E. split; [exact (trip checks _ _ _ SJ E Hs) |].
  unfold received, prepared. rewrite Hi. cbn [Z.eqb j_ihdr i_h i_w j_bpcc i_bpc j_colour j_cdef j_pclr c_meth].
  split; [reflexivity |]. split; [reflexivity |]. split.
  { unfold zlen. destruct (Jp2Spec.depth (described im) =? 255); rewrite ?repeat_length; cbn [described Jp2Spec.depths]; rewrite map_length; reflexivity. }
  split; [reflexivity |]. split; [intros Q; rewrite Q; reflexivity |]. split; [reflexivity |]. split; [reflexivity |]. split; [| reflexivity].
  cbn [described Jp2Spec.channels]. destruct (colours (enumerated (im_space im)) (im_comps im)); [| reflexivity]. rewrite map_map. reflexivity.
Qed.

(** An image of three components, 2 by 3. *)
Definition small : image := mkImage 0 0 2 3 1 0 [mkChannel 8 0 0; mkChannel 8 0 0; mkChannel 8 0 0].
Lemma small_ordinary : Ordinary small.
Proof. constructor; cbn; try lia. repeat constructor; cbn; lia. Qed.

(** With the JPIP index the file has a hole, and its code-stream is not found. *)
Theorem c32_index_refuted : exists im cs f j, Ordinary im /\ encode true im cs = Got f /\ read_header false f = Got (j, []) /\ cs <> [].
Proof.
  exists small, [255; 79; 255; 217].
  assert (X : match encode true small [255; 79; 255; 217] with
              | Got f => match read_header false f with Got (_, []) => true | _ => false end
              | _ => false end = true) by (vm_compute; reflexivity).
  revert X. destruct (encode true small [255; 79; 255; 217]) as [f | |]; [| intros X; discriminate X | intros X; discriminate X].
  destruct (read_header false f) as [[j r] | |] eqn:E; [| intros X; discriminate X | intros X; discriminate X]. destruct r; [| intros X; discriminate X].
  intros _. exists f, j. split; [exact small_ordinary |]. split; [reflexivity |]. split; [exact E | discriminate].
Qed.

Example c32_bytes : encode false small [255; 79; 255; 217] = Got
  ([0; 0; 0; 12; 106; 80; 32; 32; 13; 10; 135; 10] ++
   [0; 0; 0; 20; 102; 116; 121; 112; 106; 112; 50; 32; 0; 0; 0; 0; 106; 112; 50; 32] ++
   [0; 0; 0; 45; 106; 112; 50; 104] ++ [0; 0; 0; 22; 105; 104; 100; 114; 0; 0; 0; 3; 0; 0; 0; 2; 0; 3; 7; 7; 0; 0] ++
   [0; 0; 0; 15; 99; 111; 108; 114; 1; 0; 0; 0; 0; 0; 16] ++
   [0; 0; 0; 12; 106; 112; 50; 99; 255; 79; 255; 217]).
Proof. vm_compute. reflexivity. Qed.

(** * C51: reading arbitrary bytes *)

Theorem c51_never_panics : forall d, bytes d -> read_header false d <> Panic.
Proof.
  intros d B E. pose proof (header_safe false d B) as H. rewrite E in H. cbn [Out] in H. destruct H as [Q _]. discriminate Q.
Qed.
(** With overflow checks only a palette of 16 or more columns can panic. *)
Theorem c51_checked : forall d, bytes d -> read_header true d = Panic -> Wide d.
Proof. intros d B E. pose proof (header_safe true d B) as H. rewrite E in H. destruct H as [_ H]. exact H. Qed.
Theorem c51_result : forall checks d j r, bytes d -> read_header checks d = Got (j, r) ->
  (1 <= i_h (j_ihdr j) < 2 ^ 32 /\ 1 <= i_w (j_ihdr j) < 2 ^ 32 /\ 1 <= zlen (j_bpcc j) <= 16384) /\ Forall (fun b => 0 <= b < 256) (j_bpcc j) /\
  (forall p, j_pclr j = Some p ->
     1 <= p_nr_entries p <= 1024 /\ 1 <= p_nr_channels p <= 255 /\ zlen (p_channel p) = p_nr_channels p /\ zlen (p_entries p) = p_nr_entries p * p_nr_channels p /\
     (p_cmap p = [] \/ zlen (p_cmap p) = p_nr_channels p)) /\
  (forall l, j_cdef j = Some l -> l <> []) /\ exists a, d = a ++ r.
Proof.
  intros checks d j r B E. pose proof (header_safe checks d B) as H. rewrite E in H. cbn [Out fst snd] in H. destruct H as (G & H1 & _ & H2).
  split; [exact (g_size _ G H1) |]. split; [exact (g_bpcc _ G) |]. split; [| split; [intros l El; apply (g_cdef _ G l El) | exact H2]].
  intros p Ep. pose proof (g_pclr _ G p Ep) as P. split; [exact (k_entries _ P) |]. split; [exact (k_channels _ P) |]. split; [exact (k_channel _ P) |]. split; [exact (k_table _ P) | exact (k_cmap _ P)].
Qed.

Definition wide_file : list Z :=
  Jp2Spec.signature ++ Jp2Spec.file_type Jp2Spec.jp2_brand 0 [Jp2Spec.jp2_brand] ++
  Jp2Spec.boxed Jp2Spec.t_jp2h (Jp2Spec.boxed Jp2Spec.t_ihdr [0; 0; 0; 1; 0; 0; 0; 1; 0; 1; 7; 7; 0; 0] ++
    Jp2Spec.boxed Jp2Spec.t_pclr ([0; 1; 16] ++ repeat 7 16 ++ repeat 0 16)).
Theorem c51_checked_refuted : exists d, bytes d /\ read_header true d = Panic.
Proof.
  exists wide_file. split; [| vm_compute; reflexivity].
  assert (X : forallb (fun b => (0 <=? b) && (b <? 256)) wide_file = true) by (vm_compute; reflexivity).
  rewrite forallb_forall in X. apply Forall_forall. intros b Hb. specialize (X b Hb). apply andb_true_iff in X. destruct X as [X1 X2]. apply Z.leb_le in X1. apply Z.ltb_lt in X2. split; assumption.
Qed.
Example c51_wide_release : (match read_header false wide_file with Got (j, _) => match j_pclr j with Some p => p_nr_channels p =? 16 | None => false end | _ => false end) = true.
Proof. vm_compute. reflexivity. Qed.

(** * C52: the order of the boxes *)

Definition header_types : list Z := [Jp2Spec.t_ihdr; Jp2Spec.t_colr; Jp2Spec.t_bpcc; Jp2Spec.t_pclr; Jp2Spec.t_cmap; Jp2Spec.t_cdef].
(** Boxes of the header superbox appear at the top level before it. *)
Definition early (l : list (Z * list Z)) : Prop :=
  exists a t c b, l = a ++ (t, c) :: b /\ In t header_types /\ forall c', ~ In (Jp2Spec.t_jp2h, c') a.

Theorem c52_order : forall checks d j r, bytes d -> read_header checks d = Got (j, r) ->
  let l := Jp2Spec.top_boxes (S (length d)) d in
  ~ early l ->
  exists c l', l = (Jp2Spec.t_jP, [13; 10; 135; 10]) :: (Jp2Spec.t_ftyp, c) :: l' /\ 8 <= Jp2Spec.size c /\ exists c', In (Jp2Spec.t_jp2h, c') l'.
Proof.
  intros checks d j r B E l N. destruct (order checks d j r B E) as [(a & t & c & b & E1 & E2 & E3) | H]; [| exact H].
  exfalso. apply N. exists a, t, c, b. split; [exact E1 |]. split; [| exact E3]. apply existsb_exists in E2. destruct E2 as (k & Hk & Q). apply Z.eqb_eq in Q. subst k. exact Hk.
Qed.
(** A misplaced box first, and neither the signature nor the file type is needed. *)
Definition headless : list Z :=
  Jp2Spec.boxed Jp2Spec.t_ihdr [] ++
  Jp2Spec.boxed Jp2Spec.t_jp2h (Jp2Spec.boxed Jp2Spec.t_ihdr [0; 0; 0; 1; 0; 0; 0; 1; 0; 1; 7; 7; 0; 0]) ++ Jp2Spec.boxed Jp2Spec.t_jp2c [255; 79].
Theorem c52_order_refuted : exists d j r, bytes d /\ read_header true d = Got (j, r) /\
  forall c, ~ In (Jp2Spec.t_jP, c) (Jp2Spec.top_boxes (S (length d)) d) /\ ~ In (Jp2Spec.t_ftyp, c) (Jp2Spec.top_boxes (S (length d)) d).
Proof.
  exists headless. assert (X : match read_header true headless with Got _ => true | _ => false end = true) by (vm_compute; reflexivity).
  revert X. destruct (read_header true headless) as [[j r] | |] eqn:E; [| intros X; discriminate X | intros X; discriminate X]. intros _. exists j, r.
  split; [| split; [reflexivity |]].
  - assert (X : forallb (fun b => (0 <=? b) && (b <? 256)) headless = true) by (vm_compute; reflexivity).
    rewrite forallb_forall in X. apply Forall_forall. intros b Hb. specialize (X b Hb). apply andb_true_iff in X. destruct X as [X1 X2]. apply Z.leb_le in X1. apply Z.ltb_lt in X2. split; assumption.
  - assert (T : map fst (Jp2Spec.top_boxes (S (length headless)) headless) = [Jp2Spec.t_ihdr; Jp2Spec.t_jp2h]) by (vm_compute; reflexivity).
    intros c. split; intros Q; apply (in_map fst) in Q; rewrite T in Q; cbn [In fst] in Q; destruct Q as [Q | [Q | []]]; discriminate Q.
Qed.

(** * C53: palettes *)

(** Post-processing never reads or writes outside its tables, for any header the
    reader delivers and any components whose samples are allocated. *)
Theorem c53_no_panic : forall checks d j r m comps, bytes d -> read_header checks d = Got (j, r) -> allocated m comps ->
  postprocess m comps (j_cdef j) (j_pclr j) <> Panic.
Proof.
  intros checks d j r m comps B E A. pose proof (header_safe checks d B) as H. rewrite E in H. cbn [Out fst snd] in H. destruct H as (G & _).
  unfold postprocess. destruct (negb _); [discriminate |]. destruct (j_pclr j) as [p |] eqn:Ep; [| discriminate].
  assert (P := g_pclr _ G p Ep). destruct (check_pclr (zlen comps) p) as [p' |] eqn:Ec; [| discriminate].
  destruct (check_pclr_sound _ _ _ P Ec) as (P' & _ & _ & _ & _ & _ & U). destruct (is_nil (p_cmap p')) eqn:En; [discriminate |].
  destruct (k_cmap _ P') as [Q | Q]; [rewrite Q in En; discriminate |].
  destruct (apply_pclr_ok m comps p' P' A Q) as [N _].
  { intros cm Hcm. destruct (In_nth_error _ _ Hcm) as [i Hi]. apply (U i cm Hi). }
  destruct (apply_pclr m comps p') as [[m' cs] | |]; [discriminate | discriminate | congruence].
Qed.

(** Every component that comes out of a palette points to samples that have been
    freed. *)
Theorem c53_samples_refuted : forall m comps p m' cs, palette_ok p -> allocated m comps -> zlen (p_cmap p) = p_nr_channels p ->
  (forall cm, In cm (p_cmap p) -> m_cmp cm < zlen comps) -> apply_pclr m comps p = Got (m', cs) ->
  length cs = Z.to_nat (p_nr_channels p) /\ forall c, In c cs -> ic_data c <> 0 /\ m' (ic_data c) = None.
Proof.
  intros m comps p m' cs P A L C E. destruct (apply_pclr_ok m comps p P A L C) as [_ H]. destruct (H m' cs E) as [H1 H2]. split; [exact H1 |].
  intros c Hc. destruct (In_nth_error _ _ Hc) as [i Hi]. destruct (H2 i c Hi) as (cm & ch & o & _ & _ & _ & -> & D & F). split; assumption.
Qed.

(** Before they are freed: channels made from different components hold the
    palette's values; the depth and sign of a channel are the palette's. *)
Fixpoint values (rows : list (list Z)) (c : nat) (l : list Z) : option (list Z) :=
  match l with
  | [] => Some []
  | k :: l => match Jp2Spec.palette_value rows c k, values rows c l with Some v, Some l => Some (s32 v :: l) | _, _ => None end
  end.
Definition source_block (comps : list icomp) (x : mapping * (Z * Z)) : Z := ic_data (comp_at comps (m_cmp (fst x))).
Theorem c53_values : forall p comps l m m' cs, palette_ok p -> map_channels comps p m l = Got (m', cs) ->
  Forall (fun x => source comps (p_nr_channels p) (fst x)) l -> NoDup (map (source_block comps) l) ->
  forall x, In x l -> forall src, m (source_block comps x) = Some src -> exists dst, m' (source_block comps x) = Some dst /\
    (m_mtyp (fst x) = 0 -> dst = src) /\
    (m_mtyp (fst x) <> 0 -> values (rows_of (Z.to_nat (p_nr_channels p)) (Z.to_nat (p_nr_entries p)) (p_entries p)) (Z.to_nat (m_pcol (fst x))) src = Some dst).
Proof.
  intros p comps l m m' cs P E F N x Hx src Hs. destruct (map_channels_values p comps l m m' cs P E F N) as [V _]. destruct (V x Hx src Hs) as (dst & D1 & D2 & D3).
  exists dst. split; [exact D1 |]. split; [exact D2 |]. intros M. specialize (D3 M). pose proof (proj1 (Forall_forall _ _) F x Hx) as (_ & R). specialize (R M).
  rewrite <- D3. clear - P R. induction src as [| k l IH]; [reflexivity |]. cbn [values look_ups]. rewrite IH, look_up_value by assumption.
  destruct (Jp2Spec.palette_value _ _ k); reflexivity.
Qed.
(** Two channels from one component: the second looks up the colours of the first. *)
Definition two_columns : palette := mkPalette [1; 5; 0; 9] [(8, 0); (8, 0)] [mkMap 0 1 0; mkMap 0 1 1] 2 2.
Theorem c53_shared_refuted : exists p comps m m' cs, palette_ok p /\ allocated m comps /\
  map_channels comps p m (combine (p_cmap p) (p_channel p)) = Got (m', cs) /\
  exists x src dst, In x (combine (p_cmap p) (p_channel p)) /\ m (source_block comps x) = Some src /\ m' (source_block comps x) = Some dst /\
    values (rows_of (Z.to_nat (p_nr_channels p)) (Z.to_nat (p_nr_entries p)) (p_entries p)) (Z.to_nat (m_pcol (fst x))) src <> Some dst.
Proof.
  exists two_columns, [mkIcomp 2 1 1 0 0 7], (fun a => if a =? 7 then Some [0; 1] else None).
  assert (A : allocated (fun a => if a =? 7 then Some [0; 1] else None) [mkIcomp 2 1 1 0 0 7]).
  { intros c [<- | []] _. eexists. reflexivity. }
  assert (P : palette_ok two_columns).
  { constructor; cbn; try lia; try reflexivity; try (right; reflexivity).
    - repeat constructor; unfold is_u32; lia.
    - repeat constructor; cbn; lia. }
  eexists _, _. split; [exact P |]. split; [exact A |]. split; [reflexivity |].
  exists (mkMap 0 1 1, (8, 0)). eexists _, _. split; [right; left; reflexivity |]. split; [reflexivity |]. split; [reflexivity |]. vm_compute. discriminate.
Qed.

(** What is accepted of a component mapping. *)
Theorem c53_mapping : forall numcomps p p', palette_ok p -> check_pclr numcomps p = Some p' ->
  forall i m, nth_error (p_cmap p') i = Some m ->
    m_cmp m < numcomps /\ (m_mtyp m = 0 /\ m_pcol m = 0 \/ m_mtyp m = 1 /\ m_pcol m = Z.of_nat i) /\ m_pcol m < p_nr_channels p.
Proof.
  intros numcomps p p' P E i m Hi. destruct (check_pclr_sound _ _ _ P E) as (_ & _ & _ & _ & _ & _ & U). destruct (U i m Hi) as (U1 & U2 & U3). repeat split; assumption.
Qed.

(** * C54: channel definitions *)

(** Each colour goes to its place: the channel that is colour [a] becomes
    component [a - 1], everything but its alpha flag as it was. *)
Theorem c54_colours : forall comps l, check_cdef (zlen comps) (Some l) None = true -> Forall def_ok l -> NoDup (map d_cn l) -> NoDup (colour_asocs l) ->
  let r := apply_cdef comps (Some l) in
  length r = length comps /\
  forall d, In d l -> is_colour d -> with_alpha (comp_at r (d_asoc d - 1)) 0 = with_alpha (comp_at comps (d_cn d)) 0.
Proof.
  intros comps l C F N1 N2. destruct (check_cdef_sound _ _ _ C F) as [R _]. cbn [channel_count] in R.
  destruct (apply_defs_places l comps R N1 N2) as (P1 & P2 & _). split; [unfold zlen in P1; cbn [apply_cdef]; lia | exact P2].
Qed.
(** Definitions in the order of the components set the alpha flags. *)
Theorem c54_in_place : forall comps l, Forall (in_place (zlen comps)) l -> NoDup (map d_cn l) ->
  let r := apply_cdef comps (Some l) in
  length r = length comps /\
  (forall d, In d l -> comp_at r (d_cn d) = with_alpha (comp_at comps (d_cn d)) (d_typ d)) /\
  (forall q, 0 <= q -> ~ In q (map d_cn l) -> comp_at r q = comp_at comps q).
Proof.
  intros comps l F N. destruct (apply_defs_in_place l comps F N) as (P1 & P2). split; [unfold zlen in P1; cbn [apply_cdef]; lia | exact P2].
Qed.
(** An opacity channel in front of the colours loses its flag. *)
Theorem c54_alpha_refuted : exists comps l d, check_cdef (zlen comps) (Some l) None = true /\ Forall def_ok l /\ NoDup (map d_cn l) /\ NoDup (colour_asocs l) /\
  In d l /\ d_typ d = 1 /\ d_asoc d = 0 /\
  forall c, In c (apply_cdef comps (Some l)) -> ic_alpha c = 0.
Proof.
  exists [mkIcomp 1 1 8 0 0 10; mkIcomp 1 1 8 0 0 11], [mkDef 0 1 0; mkDef 1 0 1], (mkDef 0 1 0).
  split; [reflexivity |]. split; [repeat constructor; cbn; lia |].
  split; [repeat constructor; cbn; intuition discriminate |]. split; [repeat constructor; cbn; intuition |]. split; [left; reflexivity |]. split; [reflexivity |]. split; [reflexivity |].
  intros c Hc. vm_compute in Hc. destruct Hc as [<- | [<- | []]]; reflexivity.
Qed.
(** All channels but the first must be defined; the first need not be. *)
Theorem c54_complete : forall numcomps l pclr, check_cdef numcomps (Some l) pclr = true -> Forall def_ok l ->
  forall c, 1 <= c < channel_count numcomps pclr -> exists d, In d l /\ d_cn d = c.
Proof.
  intros numcomps l pclr C F c Hc. destruct (check_cdef_sound _ _ _ C F) as [_ R]. specialize (R c Hc). apply in_map_iff in R. destruct R as (d & E & Hd). exists d. split; assumption.
Qed.
Theorem c54_first_refuted : exists numcomps l, check_cdef numcomps (Some l) None = true /\ Forall def_ok l /\ 0 < numcomps /\ forall d, In d l -> d_cn d <> 0.
Proof.
  exists 2, [mkDef 1 0 2]. split; [reflexivity |]. split; [repeat constructor; cbn; lia |]. split; [lia |]. intros d [<- | []]. discriminate.
Qed.
Example c54_bgr : map ic_data (apply_cdef [mkIcomp 1 1 8 0 0 3; mkIcomp 1 1 8 0 0 2; mkIcomp 1 1 8 0 0 1; mkIcomp 1 1 8 0 0 4]
                                 (Some [mkDef 0 0 3; mkDef 1 0 2; mkDef 2 0 1; mkDef 3 1 0])) = [1; 2; 3; 4].
Proof. vm_compute. reflexivity. Qed.

(** * C55: what the file says about the image *)

Lemma decode_kind : forall c, channel_fits c -> Jp2Spec.decode_bits (Jp2Spec.bits (kind c)) = kind c.
Proof.
  intros c (P & _). unfold Jp2Spec.decode_bits, Jp2Spec.bits, kind. cbn [fst snd]. destruct (negb (ch_sgnd c =? 0)).
  - replace (ch_prec c - 1 + 128) with (ch_prec c - 1 + 1 * 128) by lia. rewrite Z.mod_add, Z.mod_small by lia. f_equal; [lia | apply Z.leb_le; lia].
  - rewrite Z.add_0_r, Z.mod_small by lia. f_equal; [lia | apply Z.leb_gt; lia].
Qed.
Lemma decode_kinds : forall l, Forall channel_fits l -> map Jp2Spec.decode_bits (map (fun c => Jp2Spec.bits (kind c)) l) = map kind l.
Proof.
  intros l F. rewrite map_map. apply map_ext_in. intros c Hc. apply decode_kind. apply (proj1 (Forall_forall _ _) F c Hc).
Qed.

Lemma component_bits_same : forall im c0 l, Ordinary im -> im_comps im = c0 :: l -> same_depths (c0 :: l) = true ->
  Jp2Spec.component_bits (described im) = repeat (kind c0) (length (c0 :: l)).
Proof.
  intros im c0 l O El E. pose proof (o_comps _ O) as F. rewrite El in F. inversion F as [| ? ? F0 Fl]; subst.
  unfold Jp2Spec.component_bits. cbn [described Jp2Spec.depth Jp2Spec.depths Jp2Spec.components]. rewrite El, E. cbn [map hd].
  assert (B : Jp2Spec.bits (kind c0) < 255) by (destruct F0 as (P & _); unfold Jp2Spec.bits, kind; cbn [fst snd]; destruct (negb (ch_sgnd c0 =? 0)); lia).
  destruct (Z.eqb_spec (Jp2Spec.bits (kind c0)) 255); [lia |]. unfold zlen. rewrite Nat2Z.id. generalize (length (c0 :: l)). intros k.
  induction k as [| k IH]; [reflexivity |]. cbn [repeat map]. rewrite IH, decode_kind by exact F0. reflexivity.
Qed.

(** The depths and signs in the file are those of the image when the depths
    differ or everything agrees. *)
Theorem c55_bits : forall im, Ordinary im -> same_depths (im_comps im) = false \/ Jp2Spec.all_same (map ch_sgnd (im_comps im)) = true ->
  Jp2Spec.component_bits (described im) = map kind (im_comps im).
Proof.
  intros im O H. pose proof (o_comps _ O) as F. destruct (same_depths (im_comps im)) eqn:E.
  - destruct H as [H | H]; [discriminate |]. destruct (im_comps im) as [| c0 l] eqn:El; [pose proof (o_n _ O) as Q; rewrite El in Q; unfold zlen in Q; cbn [length] in Q; lia |].
    rewrite (component_bits_same im c0 l O El E). unfold same_depths, Jp2Spec.all_same in E, H. cbn [map] in E, H. rewrite forallb_forall in E, H.
    cbn [length repeat map]. f_equal. clear - E H. induction l as [| c l IH]; [reflexivity |]. cbn [length repeat map]. rewrite IH.
    + f_equal. unfold kind. rewrite (proj1 (Z.eqb_eq _ _) (E (ch_prec c) (or_introl eq_refl))), (proj1 (Z.eqb_eq _ _) (H (ch_sgnd c) (or_introl eq_refl))). reflexivity.
    + intros x Hx. apply E. right. exact Hx.
    + intros x Hx. apply H. right. exact Hx.
  - unfold Jp2Spec.component_bits. cbn [described Jp2Spec.depth Jp2Spec.depths]. rewrite E. cbn [Z.eqb Pos.eqb]. apply decode_kinds. exact F.
Qed.
(** Otherwise they are not: components of one depth, some signed, some not. *)
Theorem c55_bits_refuted : forall im, Ordinary im -> same_depths (im_comps im) = true -> Jp2Spec.all_same (map ch_sgnd (im_comps im)) = false ->
  Jp2Spec.component_bits (described im) <> map kind (im_comps im).
Proof.
  intros im O E H Q. pose proof (o_comps _ O) as F. destruct (im_comps im) as [| c0 l] eqn:El; [discriminate H |].
  rewrite (component_bits_same im c0 l O El E) in Q. cbn [length repeat map] in Q.
  assert (Q1 : repeat (kind c0) (length l) = map kind l) by congruence. clear Q.
  assert (T : Jp2Spec.all_same (map ch_sgnd (c0 :: l)) = true); [| congruence].
  unfold Jp2Spec.all_same. cbn [map]. apply forallb_forall. intros s Hs. apply in_map_iff in Hs. destruct Hs as (c & <- & Hc).
  inversion F as [| ? ? (_ & F0) Fl]; subst. pose proof (proj1 (Forall_forall _ _) Fl c Hc) as (_ & Fc).
  assert (K : kind c = kind c0). { apply (in_map kind) in Hc. rewrite <- Q1 in Hc. apply repeat_spec in Hc. exact Hc. }
  unfold kind in K. assert (K2 : negb (ch_sgnd c =? 0) = negb (ch_sgnd c0 =? 0)) by congruence. apply Z.eqb_eq.
  clear - F0 Fc K2. destruct F0 as [F0 | F0], Fc as [Fc | Fc]; rewrite F0, Fc in *; try reflexivity; discriminate K2.
Qed.
Example c55_mixed : Jp2Spec.component_bits (described (mkImage 0 0 2 3 2 0 [mkChannel 8 0 0; mkChannel 8 1 0])) = [(8, false); (8, false)].
Proof. vm_compute. reflexivity. Qed.

(** An image with a colour profile cannot be written. *)
Theorem c55_profile_refuted : forall im jpip cs, Ordinary im -> im_icc_len im <> 0 -> encode jpip im cs = Panic.
Proof.
  intros im jpip cs O H. unfold encode. rewrite setup_prepared by exact O. cbn [bind]. unfold write_file. rewrite prepared_valid by exact O. cbn [negb].
  unfold write_jp2h, write_colr, prepared. cbn [j_colour c_meth]. destruct (Z.eqb_spec (im_icc_len im) 0); [contradiction |]. reflexivity.
Qed.

(** Colour spaces 1 (sRGB), 2 (grey) and 3 (sYCC) survive; any other is unknown
    after reading. *)
Theorem c55_colour_space : forall checks im cs, Ordinary im -> im_icc_len im = 0 -> Jp2Spec.size (Jp2Spec.file (described im) cs) < 2 ^ 32 ->
  exists f j, encode false im cs = Got f /\ read_header checks f = Got (j, cs) /\
    colour_space j = if (1 <=? im_space im) && (im_space im <=? 3) then im_space im else -1.
Proof.
  intros checks im cs O Hi Hs. destruct (c32_round_trip checks im cs O Hi Hs) as (f & j & E & R & _ & _ & _ & _ & _ & _ & C & _ & _). exists f, j. split; [exact E |]. split; [exact R |].
  cbn [described Jp2Spec.colours] in C. assert (C' : c_enumcs (j_colour j) = enumerated (im_space im)) by congruence. unfold colour_space. rewrite C'. unfold enumerated.
  destruct (Z.eqb_spec (im_space im) 1) as [-> |]; [reflexivity |]. destruct (Z.eqb_spec (im_space im) 2) as [-> |]; [reflexivity |]. destruct (Z.eqb_spec (im_space im) 3) as [-> |]; [reflexivity |].
  cbn [Z.eqb]. destruct (Z.leb_spec 1 (im_space im)); [| reflexivity]. destruct (Z.leb_spec (im_space im) 3); [lia | reflexivity].
Qed.

(** The flags of the channels after decoding: those of the image, when it has no
    channels beyond the colours and one opacity channel. *)
Definition flag (n : Z) (i : Z) (c : channel) : Z := if i <? n then 0 else if ch_alpha c =? 0 then 65535 else 1.
(** Colour channels of the colour space; the image's only opacity channel. *)
Definition colour_channels (space n : Z) : Prop := (space = 1 \/ space = 3) /\ n = 3 \/ space = 2 /\ n = 1.
Definition only_alpha (l : list channel) (a : nat) : Prop :=
  (a < length l)%nat /\ forall i c, nth_error l i = Some c -> (ch_alpha c <> 0 <-> i = a).

Lemma alphas_from : forall l k i, In i (map fst (filter (fun p => negb (ch_alpha (snd p) =? 0)) (combine (seq k (length l)) l))) <->
  exists c, (k <= i)%nat /\ nth_error l (i - k) = Some c /\ ch_alpha c <> 0.
Proof.
  induction l as [| c l IH]; intros k i; cbn [length seq combine filter map].
  - split; [intros [] |]. intros (c & _ & H & _). destruct (i - k)%nat; discriminate.
  - assert (X : (exists c0, (k <= i)%nat /\ nth_error (c :: l) (i - k) = Some c0 /\ ch_alpha c0 <> 0) <->
      (i = k /\ ch_alpha c <> 0) \/ exists c0, (S k <= i)%nat /\ nth_error l (i - S k) = Some c0 /\ ch_alpha c0 <> 0).
    { split.
      - intros (c0 & H1 & H2 & H3). destruct (i - k)%nat as [| m] eqn:E; cbn [nth_error] in H2; [left; split; [lia | congruence] | right].
        exists c0. split; [lia |]. replace (i - S k)%nat with m by lia. auto.
      - intros [[-> H] | (c0 & H1 & H2 & H3)]; [exists c; rewrite Nat.sub_diag; auto |]. exists c0. split; [lia |]. replace (i - k)%nat with (S (i - S k)) by lia. auto. }
    rewrite X. cbn [snd]. destruct (Z.eqb_spec (ch_alpha c) 0) as [E | E]; cbn [negb map fst In]; rewrite IH; intuition congruence.
Qed.
Lemma alphas_nodup : forall l k, NoDup (map fst (filter (fun p => negb (ch_alpha (snd p) =? 0)) (combine (seq k (length l)) l))).
Proof.
  induction l as [| c l IH]; intros k; cbn [length seq combine filter map]; [constructor |]. destruct (negb _); cbn [map fst]; [| apply IH]. constructor; [| apply IH].
  rewrite alphas_from. intros (c0 & H & _). lia.
Qed.
Lemma alphas_one : forall l a, alphas l = [a] <-> only_alpha l a.
Proof.
  intros l a. unfold alphas, only_alpha. split.
  - intros E. assert (X : forall i, (exists c, (0 <= i)%nat /\ nth_error l (i - 0) = Some c /\ ch_alpha c <> 0) <-> a = i) by (intros i; rewrite <- alphas_from, E; cbn [In]; tauto).
    split.
    + destruct (proj2 (X a) eq_refl) as (c & _ & H & _). rewrite Nat.sub_0_r in H. apply nth_error_Some. congruence.
    + intros i c Hc. split; [intros H; symmetry; apply X; exists c; rewrite Nat.sub_0_r; auto with arith |].
      intros ->. destruct (proj2 (X a) eq_refl) as (c' & _ & H & H'). rewrite Nat.sub_0_r in H. congruence.
  - intros [La H]. pose proof (alphas_nodup l 0) as N. set (m := map fst _) in *.
    assert (X : forall i, In i m <-> i = a).
    { intros i. unfold m. rewrite alphas_from. rewrite Nat.sub_0_r. split; [intros (c & _ & Hc & Ha); apply (H i c Hc), Ha |].
      intros ->. destruct (nth_error l a) as [c |] eqn:E; [| apply nth_error_None in E; lia]. exists c. split; [lia |]. split; [reflexivity |]. apply (H a c E). reflexivity. }
    destruct m as [| x [| y m]].
    + destruct (proj2 (X a) eq_refl).
    + f_equal. apply X. left. reflexivity.
    + assert (x = a) as -> by (apply X; left; reflexivity). assert (y = a) as -> by (apply X; right; left; reflexivity). inversion N as [| ? ? N1 _]; subst. destruct N1. left. reflexivity.
Qed.
Lemma colours_spec : forall space l n, colours (enumerated space) l = Some n <-> colour_channels space n /\ exists a, only_alpha l a /\ n <= Z.of_nat a.
Proof.
  intros space l n. unfold colours. split.
  - destruct (alphas l) as [| a [| b m]] eqn:Ea; try discriminate. apply alphas_one in Ea. unfold enumerated, colour_channels.
    destruct (Z.eqb_spec space 1); cbn [Z.eqb orb Pos.eqb]; [| destruct (Z.eqb_spec space 2); cbn [Z.eqb orb Pos.eqb]; [| destruct (Z.eqb_spec space 3); cbn [Z.eqb orb Pos.eqb]; [| discriminate]]];
      (destruct (zlen l <? _); [discriminate |]; match goal with |- context [Z.of_nat a <? ?k] => destruct (Z.ltb_spec (Z.of_nat a) k) as [| L]; [discriminate |] end;
       intros E; injection E as <-; split; [lia | exists a; auto]).
  - intros [C (a & Ha & L)]. pose proof (proj1 Ha) as La. apply alphas_one in Ha. rewrite Ha.
    assert (E : (if (enumerated space =? 16) || (enumerated space =? 18) then Some 3 else if enumerated space =? 17 then Some 1 else None) = Some n).
    { unfold enumerated. destruct C as [[[-> | ->] ->] | [-> ->]]; reflexivity. }
    rewrite E. unfold zlen. destruct (Z.ltb_spec (Z.of_nat (length l)) (n + 1)); [lia |]. destruct (Z.ltb_spec (Z.of_nat a) n); [lia | reflexivity].
Qed.

(** Channels are described exactly when the one opacity channel follows the
    colours of a known colour space. *)
Theorem c55_described : forall im j, Ordinary im -> im_icc_len im = 0 -> setup_encoder im = Got j ->
  (j_cdef j <> None <-> exists n a, colour_channels (im_space im) n /\ only_alpha (im_comps im) a /\ n <= Z.of_nat a).
Proof.
  intros im j O Hi Es. rewrite setup_prepared in Es by exact O. assert (j = prepared im) as -> by congruence. unfold prepared. rewrite Hi. cbn [Z.eqb j_cdef]. split.
  - destruct (colours _ _) as [n |] eqn:E; [| contradiction]. intros _. apply colours_spec in E. destruct E as [E (a & Ha & L)]. exists n, a. auto.
  - intros (n & a & C & Ha & L). rewrite (proj2 (colours_spec (im_space im) (im_comps im) n)) by eauto. discriminate.
Qed.

Theorem c55_channels : forall im j n a comps, Ordinary im -> im_icc_len im = 0 -> setup_encoder im = Got j ->
  colour_channels (im_space im) n -> only_alpha (im_comps im) a -> n <= Z.of_nat a -> length comps = length (im_comps im) ->
  forall i c, nth_error (im_comps im) i = Some c -> comp_at (apply_cdef comps (j_cdef j)) (Z.of_nat i) = with_alpha (comp_at comps (Z.of_nat i)) (flag n (Z.of_nat i) c).
Proof.
  intros im j n a comps O Hi Es C1 C2 C3 Lc i c Hic. rewrite setup_prepared in Es by exact O. assert (j = prepared im) as -> by congruence. clear Es.
  assert (En : colours (enumerated (im_space im)) (im_comps im) = Some n) by (apply colours_spec; eauto).
  unfold prepared. rewrite Hi. cbn [Z.eqb j_cdef]. rewrite En. set (q := combine (seq 0 (length (im_comps im))) (im_comps im)).
  pose proof (o_n _ O) as Hn. unfold zlen in Hn.
  assert (Hq : forall k x, In (k, x) q -> (k < length (im_comps im))%nat).
  { intros k x H. unfold q in H. apply in_combine_l in H. apply in_seq in H. lia. }
  assert (Cn : forall k x, In (k, x) q -> d_cn (make_def n (k, x)) = Z.of_nat k).
  { intros k x H. specialize (Hq k x H). unfold make_def. cbn [fst snd]. cbv zeta. unfold u16. rewrite (Z.mod_small (Z.of_nat k)) by lia.
    destruct (Z.of_nat k <? n); [reflexivity |]. destruct (negb (ch_alpha x =? 0)); reflexivity. }
  assert (Fp : Forall (in_place (zlen comps)) (map (make_def n) q)).
  { apply Forall_forall. intros d Hd. apply in_map_iff in Hd. destruct Hd as ([k x] & <- & H). split; [rewrite (Cn k x H); specialize (Hq k x H); unfold zlen; lia |].
    specialize (Hq k x H). unfold make_def. cbn [fst snd]. cbv zeta. unfold u16. destruct (Z.of_nat k <? n); cbn [d_asoc d_cn d_typ].
    - right. right. left. rewrite !Z.mod_small by lia. reflexivity.
    - destruct (negb (ch_alpha x =? 0)); cbn [d_asoc]; [left; reflexivity | right; left; reflexivity]. }
  assert (Ecn : map d_cn (map (make_def n) q) = map Z.of_nat (seq 0 (length (im_comps im)))).
  { rewrite map_map. rewrite (map_ext_in _ (fun p => Z.of_nat (fst p))) by (intros [k x] H; apply Cn; exact H).
    rewrite <- (map_map fst Z.of_nat). f_equal. unfold q. generalize (im_comps im) as l, 0%nat as k. clear. induction l as [| x l IH]; intros k; [reflexivity |]. cbn [length seq combine map fst]. rewrite IH. reflexivity. }
  assert (Nd : NoDup (map d_cn (map (make_def n) q))).
  { rewrite Ecn. apply FinFun.Injective_map_NoDup; [intros u v; lia | apply seq_NoDup]. }
  destruct (apply_defs_in_place _ comps Fp Nd) as (_ & P & _).
  assert (H : In (i, c) q) by (apply (in_numbered _ (im_comps im)); exact Hic). specialize (P (make_def n (i, c)) (in_map _ _ _ H)). rewrite (Cn i c H) in P.
  cbn [apply_cdef]. rewrite P. f_equal. unfold make_def, flag. cbn [fst snd]. cbv zeta. destruct (Z.of_nat i <? n); [reflexivity |]. destruct (ch_alpha c =? 0); reflexivity.
Qed.
(** A further channel that is not an opacity channel comes back flagged. *)
Theorem c55_further_refuted : exists im j comps i c, Ordinary im /\ setup_encoder im = Got j /\ length comps = length (im_comps im) /\ nth_error (im_comps im) i = Some c /\
  ch_alpha c = 0 /\ ic_alpha (comp_at (apply_cdef comps (j_cdef j)) (Z.of_nat i)) <> 0.
Proof.
  exists (mkImage 0 0 2 3 2 0 [mkChannel 8 0 0; mkChannel 8 0 1; mkChannel 8 0 0]). eexists. exists (repeat (mkIcomp 2 3 8 0 0 9) 3), 2%nat, (mkChannel 8 0 0).
  split; [constructor; cbn; try lia; repeat constructor; cbn; lia |]. split; [vm_compute; reflexivity |]. split; [reflexivity |]. split; [reflexivity |]. split; [reflexivity |]. vm_compute. discriminate.
Qed.

Print Assumptions c32_layout.
Print Assumptions c32_round_trip.
Print Assumptions c51_never_panics.
Print Assumptions c52_order.
Print Assumptions c53_samples_refuted.
Print Assumptions c53_values.
Print Assumptions c54_colours.
Print Assumptions c55_bits.
Print Assumptions c55_described.
Print Assumptions c55_channels.
