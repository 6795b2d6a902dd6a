(** The order of the boxes of a file that is accepted. *)

From Coq Require Import ZArith List Bool Lia.
From Verif Require Import Ints CioModel CioProps HdrBytes Jp2Model Jp2Read Jp2Safe.
From Verif Require HdrModel Jp2Spec.
Import ListNotations.
Local Open Scope Z_scope.

Lemma code_from : forall a b c d, bytes [a; b; c; d] -> from_be [a; b; c; d] = Jp2Spec.code a b c d.
Proof. intros. rewrite from_be_value by assumption. unfold be_value, Jp2Spec.code. cbn [fold_left]. lia. Qed.

Lemma rd4_cons : forall a b c d r, rd 4 (a :: b :: c :: d :: r) = Some (from_be [a; b; c; d], r).
Proof. reflexivity. Qed.

Lemma four : forall (d : list Z) v r, rd 4 d = Some (v, r) -> exists a b c e, d = a :: b :: c :: e :: r.
Proof.
  intros d v r E. unfold HdrModel.rd in E. destruct (Nat.ltb_spec (length d) 4); [discriminate |].
  destruct d as [| a [| b [| c [| e d]]]]; cbn [length] in *; try lia. exists a, b, c, e.
  assert (r = skipn 4 (a :: b :: c :: e :: d)) as -> by congruence. reflexivity.
Qed.

Lemma top_box : forall fuel d h r, bytes d -> read_box (zlen d) d = (Some h, r) -> b_ty h <> JP2C ->
  b_header h <= b_length h -> b_length h - b_header h <= zlen r ->
  Jp2Spec.top_boxes (S fuel) d =
  (b_ty h, firstn (Z.to_nat (b_length h - b_header h)) r) :: Jp2Spec.top_boxes fuel (skipn (Z.to_nat (b_length h - b_header h)) r).
Proof.
  intros fuel d h r B E T H1 H2. unfold read_box in E.
  destruct (rd 4 d) as [[len d1] |] eqn:E1; [| discriminate]. destruct (four _ _ _ E1) as (l3 & l2 & l1 & l0 & D1).
  destruct (rd 4 d1) as [[ty d2] |] eqn:E2; [| discriminate]. destruct (four _ _ _ E2) as (t3 & t2 & t1 & t0 & D2).
  assert (Bl : bytes [l3; l2; l1; l0] /\ bytes [t3; t2; t1; t0] /\ bytes d2).
  { subst d1 d. unfold bytes in *. inversion B as [| ? ? b1 B1]; subst. inversion B1 as [| ? ? b2 B2]; subst. inversion B2 as [| ? ? b3 B3]; subst.
    inversion B3 as [| ? ? b4 B4]; subst. inversion B4 as [| ? ? b5 B5]; subst. inversion B5 as [| ? ? b6 B6]; subst. inversion B6 as [| ? ? b7 B7]; subst.
    inversion B7 as [| ? ? b8 B8]; subst. split; [| split; [| assumption]]; repeat (apply Forall_cons; [assumption |]); apply Forall_nil. }
  destruct Bl as (Bl & Bt & B2). rewrite D1 in E1. rewrite rd4_cons in E1. rewrite D2 in E2. rewrite rd4_cons in E2.
  assert (Vl : len = Jp2Spec.code l3 l2 l1 l0) by (rewrite <- code_from by assumption; congruence).
  assert (Vt : ty = Jp2Spec.code t3 t2 t1 t0) by (rewrite <- code_from by assumption; congruence).
  assert (Ed : d = l3 :: l2 :: l1 :: l0 :: t3 :: t2 :: t1 :: t0 :: d2) by (rewrite D1, D2; reflexivity).
  cbn [Jp2Spec.top_boxes]. rewrite Ed. rewrite <- Vl, <- Vt. change Jp2Spec.t_jp2c with JP2C.
  destruct (Z.eqb_spec len 0) as [L0 | L0].
  { destruct (Z.eqb_spec (zlen d) 0); [discriminate |]. destruct (2 ^ 32 - 1 <? zlen d); [discriminate |].
    assert (h = mkBox (zlen d) ty 8) as -> by congruence. assert (r = d2) as -> by congruence. cbn [b_ty b_length b_header] in *.
    destruct (Z.eqb_spec ty JP2C); [contradiction |].
    assert (zlen d - 8 = zlen d2) as -> by (rewrite Ed; unfold zlen; cbn [length]; lia).
    unfold zlen. rewrite Nat2Z.id, firstn_all, skipn_all. destruct fuel; reflexivity. }
  assert (Q : forall n r0, n <= zlen r0 -> 0 <= n ->
     (if n <? 0 then [] else if Jp2Spec.size r0 <? n then [] else (ty, firstn (Z.to_nat n) r0) :: Jp2Spec.top_boxes fuel (skipn (Z.to_nat n) r0)) =
     (ty, firstn (Z.to_nat n) r0) :: Jp2Spec.top_boxes fuel (skipn (Z.to_nat n) r0)).
  { intros n r0 A1 A2. destruct (Z.ltb_spec n 0); [lia |]. change (Jp2Spec.size r0) with (zlen r0). destruct (Z.ltb_spec (zlen r0) n); [lia |]. reflexivity. }
  destruct (Z.eqb_spec len 1) as [L1 | L1].
  { destruct (rd 4 d2) as [[high d3] |] eqn:E3; [| discriminate]. destruct (four _ _ _ E3) as (h3 & h2 & h1 & h0 & D3).
    destruct (rd 4 d3) as [[low d4] |] eqn:E4; [| discriminate]. destruct (four _ _ _ E4) as (k3 & k2 & k1 & k0 & D4).
    assert (Bk : bytes [h3; h2; h1; h0] /\ bytes [k3; k2; k1; k0]).
    { subst d3 d2. unfold bytes in *. inversion B2 as [| ? ? b1 B1']; subst. inversion B1' as [| ? ? b2 B2']; subst. inversion B2' as [| ? ? b3 B3]; subst.
      inversion B3 as [| ? ? b4 B4]; subst. inversion B4 as [| ? ? b5 B5]; subst. inversion B5 as [| ? ? b6 B6]; subst. inversion B6 as [| ? ? b7 B7]; subst.
      inversion B7 as [| ? ? b8 B8]; subst. split; repeat (apply Forall_cons; [assumption |]); apply Forall_nil. }
    destruct Bk as (Bh & Bk). rewrite D3 in E3. rewrite rd4_cons in E3. rewrite D4 in E4. rewrite rd4_cons in E4.
    assert (Vh : high = Jp2Spec.code h3 h2 h1 h0) by (rewrite <- code_from by assumption; congruence).
    assert (Vk : low = Jp2Spec.code k3 k2 k1 k0) by (rewrite <- code_from by assumption; congruence).
    rewrite D3, D4. rewrite <- Vh, <- Vk. destruct (high =? 0); [| discriminate]. cbn [negb] in E.
    assert (h = mkBox low ty 16) as -> by congruence. assert (r = d4) as -> by congruence. cbn [b_ty b_length b_header] in *.
    destruct (Z.eqb_spec ty JP2C); [contradiction |]. apply Q; lia. }
  assert (h = mkBox len ty 8) as -> by congruence. assert (r = d2) as -> by congruence. cbn [b_ty b_length b_header] in *.
  destruct (Z.eqb_spec ty JP2C); [contradiction |]. apply Q; lia.
Qed.

Section Checks.
Variable checks : bool.

(** One step of the loop. *)
Lemma step_inv : forall fuel j d j' r, bytes d -> header_boxes checks (S fuel) j d = Got (j', r) ->
  (exists x, header_boxes checks (S fuel) j d = Got (x, r) /\ j_has_jp2h x = j_has_jp2h j /\ x = j') \/
  exists t c d', Jp2Spec.top_boxes (S fuel) d = (t, c) :: Jp2Spec.top_boxes fuel d' /\ bytes c /\ bytes d' /\ t <> JP2C /\
    ((file_header t = true \/ image_header t = true /\ has (j_state j) HEADER = true) /\
       (exists j1, read_content checks t j c = Got j1 /\ header_boxes checks fuel j1 d' = Got (j', r))
     \/ file_header t = false /\ (image_header t = true /\ has (j_state j) HEADER = false \/
                  image_header t = false /\ has (j_state j) SIGNATURE = true /\ has (j_state j) FILE_TYPE = true) /\
        header_boxes checks fuel (set_state j (Z.lor (j_state j) UNKNOWN)) d' = Got (j', r)).
Proof.
  intros fuel j d j' r B E. assert (E0 := E). cbn [header_boxes] in E.
  destruct (read_box (zlen d) d) as [[h |] q] eqn:Eb.
  2: { left. exists j. assert (j' = j) as -> by congruence. split; [exact E0 | split; reflexivity]. }
  destruct (box_shape (zlen d) d h q B (zlen_nonneg _ d) Eb) as (l & x & D & Ll & Hx & Bq & Hlen & Hhd).
  destruct (Z.eqb_spec (b_ty h) JP2C) as [Et | Nt].
  { destruct (has (j_state j) HEADER); [| discriminate]. left. eexists. split; [exact E0 |]. split; [| reflexivity].
    assert (j' = set_state j (Z.lor (j_state j) CODESTREAM)) as -> by congruence. reflexivity. }
  destruct (Z.eqb_spec (b_length h) 0) as [| Nz]; [discriminate |]. destruct (Z.ltb_spec (b_length h) (b_header h)) as [| Hle]; [discriminate |].
  unfold content_length in E. assert (b_length h <? b_header h = false) as Q by (apply Z.ltb_ge; exact Hle). rewrite Q, andb_false_r in E.
  rewrite u32_id in E by lia. cbv zeta in E. set (n := b_length h - b_header h) in *.
  destruct (Z.ltb_spec (zlen q) n) as [| Hfit].
  { assert (E1 := E). destruct (file_header (b_ty h)), (image_header (b_ty h)); cbn [orb negb andb] in E1; try discriminate.
    - destruct (has (j_state j) HEADER); discriminate.
    - destruct (has (j_state j) SIGNATURE); [| discriminate]. destruct (has (j_state j) FILE_TYPE); [| discriminate]. cbn [negb] in E1.
      destruct (has (j_state (set_state j (Z.lor (j_state j) UNKNOWN))) CODESTREAM); [| discriminate]. left. eexists. split; [exact E0 |]. split; [| reflexivity].
      assert (j' = set_state j (Z.lor (j_state j) UNKNOWN)) as -> by congruence. reflexivity. }
  right. exists (b_ty h), (firstn (Z.to_nat n) q), (skipn (Z.to_nat n) q).
  destruct (bytes_split (Z.to_nat n) q Bq) as [Bf Bs].
  split; [apply top_box; assumption |]. split; [exact Bf |]. split; [exact Bs |]. split; [exact Nt |].
  destruct (file_header (b_ty h)) eqn:Ef; cbn [orb negb andb] in E.
  - left. split; [left; reflexivity |]. destruct (read_content checks (b_ty h) j (firstn (Z.to_nat n) q)) as [j1 | |]; [| discriminate | discriminate].
    exists j1. split; [reflexivity | exact E].
  - destruct (image_header (b_ty h)) eqn:Ei.
    + destruct (has (j_state j) HEADER) eqn:Eh; cbn [negb] in E.
      * left. split; [right; split; [reflexivity | reflexivity] |]. destruct (read_content checks (b_ty h) j (firstn (Z.to_nat n) q)) as [j1 | |]; [| discriminate | discriminate].
        exists j1. split; [reflexivity | exact E].
      * right. split; [reflexivity |]. split; [left; split; reflexivity | exact E].
    + destruct (has (j_state j) SIGNATURE) eqn:Es; [| discriminate]. destruct (has (j_state j) FILE_TYPE) eqn:Ey; [| discriminate]. cbn [negb] in E.
      right. split; [reflexivity |]. split; [right; repeat split; assumption || reflexivity | exact E].
Qed.

Ltac inv_want H := unfold want in H;
  repeat match type of H with
         | (if ?x then _ else _) = _ => destruct x; try discriminate H
         | (match ?x with _ => _ end) = _ => destruct x as [[? ?] |]; [| discriminate H]
         end.

Lemma image_keeps : forall t j c j1, read_image checks t j c = Got j1 -> j_has_jp2h j1 = j_has_jp2h j.
Proof.
  intros t j c j1 E. unfold read_image in E.
  destruct (t =? IHDR); [| destruct (t =? COLR); [| destruct (t =? BPCC); [| destruct (t =? PCLR); [| destruct (t =? CDEF); [| destruct (t =? CMAP)]]]]].
  - unfold read_ihdr in E. destruct (negb (is_nil (j_bpcc j))); [congruence |]. destruct (negb _); [discriminate |]. inv_want E.
    match type of E with Got ?x = _ => assert (j1 = x) as -> by congruence end. reflexivity.
  - unfold read_colr in E. destruct (zlen c <? 3); [discriminate |]. cbv zeta in E. destruct (c_has (j_colour j)); [congruence |].
    unfold want at 1 2 3 in E. destruct (rd 1 c) as [[m b1] |]; [| discriminate]. destruct (rd 1 b1) as [[m2 b2] |]; [| discriminate].
    destruct (rd 1 b2) as [[m3 b3] |]; [| discriminate]. destruct (m =? 1).
    + destruct (zlen b3 <? 4); [discriminate |]. unfold want in E. destruct (rd 4 b3) as [[e b4] |]; [| discriminate]. destruct (e =? 14).
      * destruct (lab b4); [| discriminate | discriminate]. cbn [bind] in E. match type of E with Got ?x = _ => assert (j1 = x) as -> by congruence end. reflexivity.
      * match type of E with Got ?x = _ => assert (j1 = x) as -> by congruence end. reflexivity.
    + destruct (m =? 2); match type of E with Got ?x = _ => assert (j1 = x) as -> by congruence end; reflexivity.
  - unfold read_bpcc in E. destruct (negb _); [discriminate |]. destruct (read_bytes _ _); [| discriminate | discriminate]. cbn [bind] in E.
    match type of E with Got ?x = _ => assert (j1 = x) as -> by congruence end. reflexivity.
  - unfold read_pclr in E. destruct (j_pclr j); [discriminate |]. destruct (zlen c <? 3); [discriminate |]. unfold want in E.
    destruct (rd 2 c) as [[e b1] |]; [| discriminate]. destruct (_ || _); [discriminate |]. destruct (rd 1 b1) as [[n b2] |]; [| discriminate].
    destruct (n =? 0); [discriminate |]. destruct (zlen b2 <? n); [discriminate |]. destruct (checks && _); [discriminate |].
    destruct (read_channels _ _) as [[cs b3] | |]; [| discriminate | discriminate]. cbn [bind] in E. destruct (read_rows _ _ _); [| discriminate | discriminate]. cbn [bind] in E.
    match type of E with Got ?x = _ => assert (j1 = x) as -> by congruence end. reflexivity.
  - unfold read_cdef in E. destruct (j_cdef j); [discriminate |]. destruct (zlen c <? 2); [discriminate |]. unfold want in E.
    destruct (rd 2 c) as [[n b1] |]; [| discriminate]. destruct (n =? 0); [discriminate |]. destruct (zlen b1 <? n * 6); [discriminate |].
    destruct (read_defs _ _); [| discriminate | discriminate]. cbn [bind] in E. match type of E with Got ?x = _ => assert (j1 = x) as -> by congruence end. reflexivity.
  - unfold read_cmap in E. destruct (j_pclr j) as [p |]; [| discriminate]. destruct (negb _); [discriminate |]. destruct (zlen c <? _); [discriminate |].
    destruct (read_maps _ _); [| discriminate | discriminate]. cbn [bind] in E. match type of E with Got ?x = _ => assert (j1 = x) as -> by congruence end. reflexivity.
  - congruence.
Qed.

Lemma jp_inv : forall j c j1, read_jp j c = Got j1 -> bytes c ->
  j_state j = 0 /\ c = [13; 10; 135; 10] /\ j1 = set_state j (Z.lor (j_state j) SIGNATURE).
Proof.
  intros j c j1 E B. unfold read_jp in E. destruct (Z.eqb_spec (j_state j) 0) as [Es |]; [| discriminate].
  destruct (Z.eqb_spec (zlen c) 4) as [L |]; [| discriminate]. cbn [negb] in E. unfold zlen in L.
  assert (L4 : length c = 4%nat) by lia. unfold want in E. destruct (rd 4 c) as [[m r] |] eqn:Er; [| discriminate].
  destruct (Z.eqb_spec m MAGIC) as [Em |]; [| discriminate]. cbn [negb] in E. split; [exact Es |]. split.
  - destruct (rd_split _ _ _ _ B Er) as (l & Dl & Ll & Vl & Bl). assert (r = []) by (destruct r; [reflexivity | rewrite Dl, app_length in L4; cbn [length] in L4; lia]).
    subst r. rewrite app_nil_r in Dl. subst l. rewrite <- (be_from c B L4), <- Vl, Em. reflexivity.
  - congruence.
Qed.
Lemma ftyp_inv : forall j c j1, read_ftyp j c = Got j1 ->
  j_state j = 1 /\ 8 <= zlen c /\ j_state j1 = Z.lor (j_state j) FILE_TYPE /\ j_has_jp2h j1 = j_has_jp2h j.
Proof.
  intros j c j1 E. unfold read_ftyp in E. destruct (Z.eqb_spec (j_state j) SIGNATURE) as [Es |]; [| discriminate]. cbn [negb] in E.
  destruct (Z.ltb_spec (zlen c) 8); [discriminate |]. unfold want in E. destruct (rd 4 c) as [[m r] |]; [| discriminate]. destruct (rd 4 r) as [[m2 r2] |]; [| discriminate].
  destruct (negb _); [discriminate |]. destruct (read_words _ _); [| discriminate | discriminate]. cbn [bind] in E.
  match type of E with Got ?x = _ => assert (j1 = x) as -> by congruence end. repeat split; assumption || reflexivity.
Qed.

Lemma file_types : forall t, file_header t = true -> t = JP \/ t = FTYP \/ t = JP2H.
Proof.
  intros t H. apply existsb_exists in H. destruct H as (k & Hk & E). apply Z.eqb_eq in E. subst k. cbn [In] in Hk. intuition.
Qed.
Lemma content_image : forall t j c, image_header t = true -> read_content checks t j c = read_image checks t j c.
Proof.
  intros t j c H. apply existsb_exists in H. destruct H as (k & Hk & E). apply Z.eqb_eq in E. subst k. cbn [In] in Hk.
  repeat destruct Hk as [<- | Hk]; [reflexivity .. | destruct Hk].
Qed.

Lemma reaches : forall fuel j d j' r, bytes d -> header_boxes checks fuel j d = Got (j', r) -> j_has_jp2h j = false -> j_has_jp2h j' = true ->
  exists c, In (JP2H, c) (Jp2Spec.top_boxes fuel d).
Proof.
  induction fuel as [| fuel IH]; intros j d j' r B E H0 H1; [discriminate |].
  destruct (step_inv fuel j d j' r B E) as [(x & _ & Hx & ->) | (t & c & d' & T & Bc & Bd & Nt & C)]; [congruence |].
  rewrite T. destruct C as [(Ht & j1 & R & N) | (Hf & Hc & N)].
  - destruct Ht as [Ht | [Ht _]].
    + destruct (file_types t Ht) as [-> | [-> | ->]].
      * change (read_content checks JP j c) with (read_jp j c) in R. destruct (jp_inv _ _ _ R Bc) as (_ & _ & ->).
        destruct (IH _ _ _ _ Bd N H0 H1) as (c' & Hc'). exists c'. right. exact Hc'.
      * change (read_content checks FTYP j c) with (read_ftyp j c) in R. destruct (ftyp_inv _ _ _ R) as (_ & _ & _ & K).
        destruct (IH _ _ _ _ Bd N ltac:(congruence) H1) as (c' & Hc'). exists c'. right. exact Hc'.
      * exists c. left. reflexivity.
    + rewrite content_image in R by exact Ht. pose proof (image_keeps _ _ _ _ R) as K.
      destruct (IH _ _ _ _ Bd N ltac:(congruence) H1) as (c' & Hc'). exists c'. right. exact Hc'.
  - destruct (IH _ _ _ _ Bd N H0 H1) as (c' & Hc'). exists c'. right. exact Hc'.
Qed.

(** Boxes that belong into the header superbox, before it. *)
Definition misplaced (l : list (Z * list Z)) : Prop :=
  exists a t c b, l = a ++ (t, c) :: b /\ image_header t = true /\ forall c', ~ In (JP2H, c') a.

Theorem order : forall d j r, bytes d -> read_header checks d = Got (j, r) ->
  let l := Jp2Spec.top_boxes (S (length d)) d in
  misplaced l \/
  exists c l', l = (JP, [13; 10; 135; 10]) :: (FTYP, c) :: l' /\ 8 <= zlen c /\ exists c', In (JP2H, c') l'.
Proof.
  intros d j r B E. cbv zeta. unfold read_header in E. destruct (header_boxes checks (S (length d)) created d) as [[j0 r0] | |] eqn:E0; [| discriminate | discriminate].
  cbn [bind] in E. destruct (j_has_jp2h j0) eqn:Hj; [| discriminate]. clear E.
  destruct (length d) as [| fuel] eqn:Ld.
  { destruct d; [| discriminate Ld]. cbn in E0. assert (j0 = created) as -> by congruence. discriminate Hj. }
  destruct (step_inv _ _ _ _ _ B E0) as [(x & _ & Hx & ->) | (t & c & d1 & T & Bc & Bd & Nt & C)]; [rewrite Hj in Hx; discriminate Hx |].
  destruct C as [(Ht & j1 & R & N) | (Hf & Hc & N)].
  2: { destruct Hc as [[Hi _] | (_ & Hs & _)]; [| discriminate Hs]. left. exists [], t, c, (Jp2Spec.top_boxes (S fuel) d1). rewrite T. repeat split; [exact Hi | intros c' []]. }
  destruct Ht as [Ht | [Ht Hh]]; [| discriminate Hh]. destruct (file_types t Ht) as [-> | [-> | ->]].
  2: { change (read_content checks FTYP created c) with (read_ftyp created c) in R. destruct (ftyp_inv _ _ _ R) as (K & _). discriminate K. }
  2: { discriminate R. }
  change (read_content checks JP created c) with (read_jp created c) in R. destruct (jp_inv _ _ _ R Bc) as (_ & Ec & ->). subst c.
  destruct (step_inv _ _ _ _ _ Bd N) as [(x & _ & Hx & ->) | (t & c & d2 & T2 & Bc2 & Bd2 & Nt2 & C)]; [rewrite Hj in Hx; discriminate Hx |].
  rewrite T, T2. destruct C as [(Ht2 & j1 & R2 & N2) | (Hf & Hc & N2)].
  2: { destruct Hc as [[Hi _] | (_ & _ & Hy)]; [| discriminate Hy]. left. exists [(JP, [13; 10; 135; 10])], t, c, (Jp2Spec.top_boxes fuel d2).
       repeat split; [exact Hi |]. intros c' [Q | []]. discriminate Q. }
  destruct Ht2 as [Ht2 | [_ Hh]]; [| discriminate Hh]. destruct (file_types t Ht2) as [-> | [-> | ->]].
  - change (read_content checks JP ?a c) with (read_jp a c) in R2. destruct (jp_inv _ _ _ R2 Bc2) as (K & _). discriminate K.
  - change (read_content checks FTYP ?a c) with (read_ftyp a c) in R2. destruct (ftyp_inv _ _ _ R2) as (_ & L8 & _ & K).
    right. exists c, (Jp2Spec.top_boxes fuel d2). split; [reflexivity |]. split; [exact L8 |].
    apply (reaches fuel j1 d2 j0 r0 Bd2 N2); [rewrite K; reflexivity | exact Hj].
  - discriminate R2.
Qed.

End Checks.
