(** Reading arbitrary bytes: no panic, and what a header that was read can hold. *)

From Coq Require Import ZArith List Bool Lia.
From Verif Require Import Ints CioModel CioProps HdrBytes Jp2Model Jp2Read.
From Verif Require HdrModel.
Import ListNotations.
Local Open Scope Z_scope.

Definition map_ok (m : mapping) : Prop := 0 <= m_cmp m < 65536 /\ 0 <= m_mtyp m < 256 /\ 0 <= m_pcol m < 256.
Record palette_ok (p : palette) : Prop := {
  k_entries : 1 <= p_nr_entries p <= 1024; k_channels : 1 <= p_nr_channels p <= 255;
  k_channel : zlen (p_channel p) = p_nr_channels p;
  k_table : zlen (p_entries p) = p_nr_entries p * p_nr_channels p;
  k_values : Forall is_u32 (p_entries p);
  k_cmap : p_cmap p = [] \/ zlen (p_cmap p) = p_nr_channels p;
  k_maps : Forall map_ok (p_cmap p) }.
Record Good (j : jp2) : Prop := {
  g_size : j_has_ihdr j = true -> 1 <= i_h (j_ihdr j) < 2 ^ 32 /\ 1 <= i_w (j_ihdr j) < 2 ^ 32 /\ 1 <= zlen (j_bpcc j) <= 16384;
  g_bpcc : Forall (fun b => 0 <= b < 256) (j_bpcc j);
  g_comps : zlen (j_bpcc j) <= 16384;
  g_pclr : forall p, j_pclr j = Some p -> palette_ok p;
  g_cdef : forall l, j_cdef j = Some l -> l <> [] /\ Forall def_ok l }.

Ltac keep G := first [exact (g_size _ G) | exact (g_bpcc _ G) | exact (g_comps _ G) | exact (g_pclr _ G) | exact (g_cdef _ G)].

(** A palette box with 16 or more columns: its type, eight bytes of an extended
    length or none, the number of entries and the number of columns. *)
Definition Wide (d : list Z) : Prop :=
  exists a x hi lo n b, d = a ++ be 4 PCLR ++ x ++ hi :: lo :: n :: b /\ (x = [] \/ length x = 8%nat) /\ 16 <= n.
Lemma wide_in : forall a d b, Wide d -> Wide (a ++ d ++ b).
Proof.
  intros a d b (a' & x & hi & lo & n & b' & -> & Hx & Hn). exists (a ++ a'), x, hi, lo, n, (b' ++ b).
  split; [| split; assumption]. rewrite <- !app_assoc. cbn [app]. reflexivity.
Qed.
Lemma wide_l : forall a d, Wide d -> Wide (a ++ d).
Proof. intros a d H. rewrite <- (app_nil_r d). apply wide_in. exact H. Qed.
Lemma wide_r : forall d b, Wide d -> Wide (d ++ b).
Proof. intros d b H. apply (wide_in [] d b H). Qed.

(** A result that is [Q] and panics only if [P]. *)
Definition Out {A} (P : Prop) (Q : A -> Prop) (r : res A) : Prop :=
  match r with Got a => Q a | Refused => True | Panic => P end.
Lemma out_bind : forall A B P (Q : A -> Prop) (R : B -> Prop) r k, Out P Q r -> (forall a, Q a -> Out P R (k a)) -> Out P R (bind r k).
Proof. intros A B P Q R [a | |] k H K; cbn in *; auto. Qed.
Lemma out_weak : forall A (P P' : Prop) (Q Q' : A -> Prop) r, (P -> P') -> (forall a, Q a -> Q' a) -> Out P Q r -> Out P' Q' r.
Proof. intros A P P' Q Q' [a | |] HP HQ H; cbn in *; auto. Qed.
Lemma out_want : forall A P (Q : A -> Prop) n d k, bytes d -> (n <= length d)%nat ->
  (forall v d', 0 <= v < 256 ^ Z.of_nat n -> bytes d' -> length d = (n + length d')%nat -> Out P Q (k v d')) -> Out P Q (want n d k).
Proof.
  intros A P Q n d k B H K. unfold want. destruct (rd n d) as [[v d'] |] eqn:E.
  - destruct (rd_inv _ _ _ _ B E) as (Hv & B' & L). apply K; assumption.
  - unfold HdrModel.rd in E. destruct (Nat.ltb_spec (length d) n); [lia | discriminate].
Qed.

Lemma is_nil_iff : forall A (l : list A), is_nil l = true <-> l = [].
Proof. destruct l; split; intros; try reflexivity; discriminate. Qed.

Section Checks.
Variable checks : bool.
Definition Bad (d : list Z) : Prop := checks = true /\ Wide d.

Lemma ihdr_out : forall P j b, Good j -> bytes b -> Out P Good (read_ihdr j b).
Proof.
  intros P j b G B. unfold read_ihdr. destruct (is_nil (j_bpcc j)) eqn:En; cbn [negb]; [| exact G].
  destruct (Z.eqb_spec (zlen b) 14) as [L |]; cbn [negb]; [| exact I]. unfold zlen in L.
  apply out_want; [assumption | lia | intros h b1 Hh B1 L1]. apply out_want; [assumption | lia | intros w b2 Hw B2 L2].
  apply out_want; [assumption | lia | intros n b3 Hn B3 L3].
  destruct (Z.ltb_spec h 1); [exact I |]. destruct (Z.ltb_spec w 1); [exact I |]. destruct (Z.ltb_spec n 1); [exact I |]. cbn [orb].
  destruct (Z.ltb_spec 16384 n); [exact I |].
  apply out_want; [assumption | lia | intros bpc b4 Hb4 B4 L4]. apply out_want; [assumption | lia | intros c b5 Hb5 B5 L5].
  apply out_want; [assumption | lia | intros u b6 Hb6 B6 L6]. apply out_want; [assumption | lia | intros p b7 Hb7 B7 L7].
  change (256 ^ Z.of_nat 4) with (2 ^ 32) in *. cbn [Out].
  assert (zlen (repeat 0 (Z.to_nat n)) = n) by (unfold zlen; rewrite repeat_length; lia).
  constructor; cbn [set_ihdr j_has_ihdr j_ihdr i_h i_w j_bpcc j_pclr j_cdef].
  - intros _. lia.
  - apply Forall_forall. intros x Hx. apply repeat_spec in Hx. lia.
  - lia.
  - apply (g_pclr _ G).
  - apply (g_cdef _ G).
Qed.

Lemma bytes_out : forall P n b, bytes b -> (n <= length b)%nat ->
  Out P (fun l => length l = n /\ Forall (fun v => 0 <= v < 256) l) (read_bytes n b).
Proof.
  induction n as [| n IH]; intros b B L; [split; [reflexivity | constructor] |]. cbn [read_bytes].
  apply out_want; [assumption | lia | intros v b1 Hv B1 L1]. eapply out_bind; [apply IH; [assumption | lia] |].
  intros l [E F]. split; [cbn [length]; lia | constructor; [exact Hv | exact F]].
Qed.
Lemma bpcc_out : forall P j b, Good j -> bytes b -> Out P Good (read_bpcc j b).
Proof.
  intros P j b G B. unfold read_bpcc. destruct (Z.eqb_spec (zlen b) (zlen (j_bpcc j))) as [L |]; cbn [negb]; [| exact I]. unfold zlen in L.
  eapply out_bind; [apply bytes_out; [assumption | lia] |]. intros l [E F]. cbn [Out].
  assert (zlen l = zlen (j_bpcc j)) by (unfold zlen; lia).
  constructor; cbn [set_bpcc j_has_ihdr j_ihdr j_bpcc j_pclr j_cdef]; rewrite ?H; try keep G. exact F.
Qed.

Lemma land127 : forall v, 0 <= Z.land v 127 < 128.
Proof. intros. change 127 with (Z.ones 7). rewrite Z.land_ones by lia. apply Z.mod_pos_bound. reflexivity. Qed.
Definition channel_ok (c : Z * Z) : Prop := 1 <= fst c <= 128 /\ (snd c = 0 \/ snd c = 1).
Lemma channels_out : forall P n b, bytes b -> (n <= length b)%nat ->
  Out P (fun r => length (fst r) = n /\ Forall channel_ok (fst r) /\ bytes (snd r)) (read_channels n b).
Proof.
  induction n as [| n IH]; intros b B L; [repeat split; [constructor | exact B] |]. cbn [read_channels].
  apply out_want; [assumption | lia | intros v b1 Hv B1 L1]. eapply out_bind; [apply IH; [assumption | lia] |].
  intros [l b'] (E & F & B'). cbn [fst snd Out] in *. split; [cbn [length]; lia | split; [| exact B']]. constructor; [| exact F].
  split; cbn [fst snd]; [pose proof (land127 v); lia | destruct (Z.land v 128 =? 0); [left | right]; reflexivity].
Qed.
Lemma width_bound : forall c, channel_ok c -> (1 <= width c <= 4)%nat.
Proof.
  intros [s g] [H _]. cbn [fst] in H. unfold width. cbn [fst]. rewrite Z.shiftr_div_pow2 by lia. change (2 ^ 3) with 8.
  assert (1 <= (s + 7) / 8) by (apply Z.div_le_lower_bound; lia). lia.
Qed.
Lemma row_out : forall P cs b, Forall channel_ok cs -> bytes b ->
  Out P (fun r => length (fst r) = length cs /\ Forall is_u32 (fst r) /\ bytes (snd r)) (read_row cs b).
Proof.
  induction cs as [| c cs IH]; intros b F B; [repeat split; [constructor | exact B] |]. inversion F as [| ? ? Hc Fc]; subst. cbn [read_row].
  destruct (rd (width c) b) as [[v b1] |] eqn:E; [| exact I]. destruct (rd_inv _ _ _ _ B E) as (Hv & B1 & L).
  eapply out_bind; [apply IH; assumption |]. intros [l b'] (El & Fl & B'). cbn [fst snd Out length] in *. split; [lia | split; [| exact B']].
  constructor; [| exact Fl]. pose proof (width_bound c Hc). unfold is_u32. assert (256 ^ Z.of_nat (width c) <= 256 ^ 4) by (apply Z.pow_le_mono_r; lia).
  change (256 ^ 4) with (2 ^ 32) in *. lia.
Qed.
Lemma rows_out : forall P n cs b, Forall channel_ok cs -> bytes b ->
  Out P (fun l => length l = (n * length cs)%nat /\ Forall is_u32 l) (read_rows n cs b).
Proof.
  induction n as [| n IH]; intros cs b F B; [split; [reflexivity | constructor] |]. cbn [read_rows].
  eapply out_bind; [apply row_out; assumption |]. intros [l b1] (E & Fl & B1). cbn [fst snd] in *.
  eapply out_bind; [apply IH; assumption |]. intros l' (E' & Fl'). cbn [Out Nat.mul]. split; [rewrite app_length; lia | apply Forall_app; split; assumption].
Qed.
Lemma pclr_out : forall j b, Good j -> bytes b -> Out (checks = true /\ exists hi lo n r, b = hi :: lo :: n :: r /\ 16 <= n) Good (read_pclr checks j b).
Proof.
  intros j b G B. unfold read_pclr. destruct (j_pclr j) as [q |] eqn:Eq; [exact I |].
  destruct (Z.ltb_spec (zlen b) 3) as [| L]; [exact I |].
  destruct b as [| hi [| lo [| n r]]]; [unfold zlen in L; cbn [length] in L; lia .. |]. clear L.
  assert (Bn : is_byte n) by (inversion B as [| ? ? _ B1]; subst; inversion B1 as [| ? ? _ B2]; subst; inversion B2; assumption).
  assert (Br : bytes (n :: r)) by (inversion B as [| ? ? _ B1]; subst; inversion B1; assumption).
  unfold want at 1. set (P := checks = true /\ _).
  assert (E : rd 2 (hi :: lo :: n :: r) = Some (from_be [hi; lo], n :: r)) by reflexivity. rewrite E.
  destruct (rd_inv _ _ _ _ B E) as (He & _ & _). set (entries := from_be [hi; lo]) in *. change (256 ^ Z.of_nat 2) with 65536 in He.
  destruct (Z.eqb_spec entries 0); [exact I |]. destruct (Z.ltb_spec 1024 entries); [exact I |]. cbn [orb].
  rewrite want_one by exact Bn. destruct (Z.eqb_spec n 0); [exact I |]. destruct (Z.ltb_spec (zlen r) n); [exact I |].
  destruct (checks && (255 <? n * n)) eqn:Ec.
  { apply andb_prop in Ec. destruct Ec as [Ec1 Ec2]. apply Z.ltb_lt in Ec2. split; [exact Ec1 |]. exists hi, lo, n, r. split; [reflexivity |].
    unfold is_byte in Bn. nia. }
  unfold zlen in *. unfold is_byte in Bn.
  assert (Br' : bytes r) by (inversion Br; assumption).
  eapply out_bind; [apply channels_out; [exact Br' | lia] |]. intros [cs b'] (Lc & Fc & B'). cbn [fst snd] in *.
  eapply out_bind; [apply rows_out; assumption |]. intros l (Ll & Fl). cbn [Out].
  constructor; cbn [set_pclr j_has_ihdr j_ihdr j_bpcc j_pclr j_cdef]; try keep G.
  intros p Ep. assert (p = mkPalette l cs [] entries n) as -> by congruence. constructor; cbn [p_nr_entries p_nr_channels p_channel p_entries p_cmap]; unfold zlen.
  - lia.
  - lia.
  - lia.
  - rewrite Ll, Lc. nia.
  - exact Fl.
  - left. reflexivity.
  - constructor.
Qed.

Lemma maps_out : forall P n b, bytes b -> (4 * n <= length b)%nat ->
  Out P (fun l => length l = n /\ Forall map_ok l) (read_maps n b).
Proof.
  induction n as [| n IH]; intros b B L; [split; [reflexivity | constructor] |]. cbn [read_maps].
  apply out_want; [assumption | lia | intros v1 b1 Hv1 B1 L1]. apply out_want; [assumption | lia | intros v2 b2 Hv2 B2 L2].
  apply out_want; [assumption | lia | intros v3 b3 Hv3 B3 L3]. eapply out_bind; [apply IH; [assumption | lia] |].
  intros l [E F]. split; [cbn [length]; lia | constructor; [| exact F]]. repeat split; cbn [m_cmp m_mtyp m_pcol]; cbn in *; lia.
Qed.
Lemma cmap_out : forall P j b, Good j -> bytes b -> Out P Good (read_cmap j b).
Proof.
  intros P j b G B. unfold read_cmap. destruct (j_pclr j) as [p |] eqn:Ep; [| exact I]. pose proof (g_pclr _ G p Ep) as K.
  destruct (is_nil (p_cmap p)); cbn [negb]; [| exact I]. destruct (Z.ltb_spec (zlen b) (p_nr_channels p * 4)); [exact I |].
  pose proof (k_channels _ K). unfold zlen in *.
  eapply out_bind; [apply maps_out; [assumption | lia] |]. intros l [E F]. cbn [Out].
  constructor; cbn [set_pclr j_has_ihdr j_ihdr j_bpcc j_pclr j_cdef]; try keep G.
  intros q Eq. assert (q = with_cmap p l) as -> by congruence. destruct K. constructor; cbn [with_cmap p_nr_entries p_nr_channels p_channel p_entries p_cmap]; try assumption.
  right. unfold zlen. lia.
Qed.

Lemma defs_out : forall P n b, bytes b -> (6 * n <= length b)%nat ->
  Out P (fun l => length l = n /\ Forall def_ok l) (read_defs n b).
Proof.
  induction n as [| n IH]; intros b B L; [split; [reflexivity | constructor] |]. cbn [read_defs].
  apply out_want; [assumption | lia | intros v1 b1 Hv1 B1 L1]. apply out_want; [assumption | lia | intros v2 b2 Hv2 B2 L2].
  apply out_want; [assumption | lia | intros v3 b3 Hv3 B3 L3]. eapply out_bind; [apply IH; [assumption | lia] |].
  intros l [E F]. split; [cbn [length]; lia | constructor; [| exact F]]. repeat split; cbn [d_cn d_typ d_asoc]; cbn in *; lia.
Qed.
Lemma cdef_out : forall P j b, Good j -> bytes b -> Out P Good (read_cdef j b).
Proof.
  intros P j b G B. unfold read_cdef. destruct (j_cdef j) as [q |] eqn:Ep; [exact I |].
  destruct (Z.ltb_spec (zlen b) 2) as [| L]; [exact I |]. unfold zlen in L.
  apply out_want; [assumption | lia | intros n b1 Hn B1 L1]. destruct (Z.eqb_spec n 0); [exact I |].
  destruct (Z.ltb_spec (zlen b1) (n * 6)); [exact I |]. unfold zlen in *.
  eapply out_bind; [apply defs_out; [assumption | lia] |]. intros l [E F]. cbn [Out].
  constructor; cbn [set_cdef j_has_ihdr j_ihdr j_bpcc j_pclr j_cdef]; try keep G.
  intros q Eq. assert (q = l) as -> by congruence. split; [| exact F]. intros ->. cbn [length] in E. lia.
Qed.

Lemma good_colour : forall j c, Good j -> Good (set_colour j c).
Proof. intros j c G. constructor; keep G. Qed.
Lemma good_state : forall j c, Good j -> Good (set_state j c).
Proof. intros j c G. constructor; keep G. Qed.
Lemma good_img : forall j c, Good j -> Good (set_img j c).
Proof. intros j c G. constructor; keep G. Qed.
Lemma good_jp2h : forall j, Good j -> Good (set_jp2h j).
Proof. intros j G. constructor; keep G. Qed.
Lemma good_ftyp : forall j c, Good j -> Good (set_ftyp j c).
Proof. intros j c G. constructor; keep G. Qed.
Lemma good_created : Good created.
Proof.
  constructor; cbn [created j_has_ihdr j_bpcc j_pclr j_cdef]; try discriminate. constructor.
Qed.

Lemma lab_out : forall P b, bytes b -> Out P (fun _ => True) (lab b).
Proof.
  intros P b B. unfold lab. destruct (Z.eqb_spec (zlen b) 28) as [L |]; [| exact I]. unfold zlen in L.
  do 7 (apply out_want; [assumption | lia | intros ? ? ? ? ?]). exact I.
Qed.
Lemma colr_out : forall P j b, Good j -> bytes b -> Out P Good (read_colr j b).
Proof.
  intros P j b G B. unfold read_colr. destruct (Z.ltb_spec (zlen b) 3) as [| L]; [exact I |]. unfold zlen in L. cbv zeta.
  destruct (c_has (j_colour j)) eqn:Eh; [exact G |].
  apply out_want; [assumption | lia | intros meth b1 Hm B1 L1]. apply out_want; [assumption | lia | intros pr b2 Hp B2 L2].
  apply out_want; [assumption | lia | intros ap b3 Ha B3 L3].
  destruct (meth =? 1).
  - destruct (Z.ltb_spec (zlen b3) 4) as [| L4]; [exact I |]. unfold zlen in L4.
    apply out_want; [assumption | lia | intros e b4 He B4 L5]. destruct (e =? 14).
    + eapply out_bind; [apply lab_out; assumption |]. intros icc _. apply good_colour. exact G.
    + apply good_colour. exact G.
  - destruct (meth =? 2); apply good_colour; exact G.
Qed.

Definition wide_body (b : list Z) : Prop := exists hi lo n r, b = hi :: lo :: n :: r /\ 16 <= n.
Lemma image_out : forall t j b, Good j -> bytes b ->
  Out (checks = true /\ t = PCLR /\ wide_body b) Good (read_image checks t j b).
Proof.
  intros t j b G B. unfold read_image. destruct (t =? IHDR); [apply ihdr_out; assumption |]. destruct (t =? COLR); [apply colr_out; assumption |].
  destruct (t =? BPCC); [apply bpcc_out; assumption |]. destruct (Z.eqb_spec t PCLR) as [E |].
  { eapply out_weak; [| | apply pclr_out; assumption]; [intros [A W]; split; [exact A | split; [exact E | exact W]] | auto]. }
  destruct (t =? CDEF); [apply cdef_out; assumption |]. destruct (t =? CMAP); [apply cmap_out; assumption | exact G].
Qed.

(** Box headers in the bytes. *)
Lemma be_from : forall l, bytes l -> length l = 4%nat -> be 4 (from_be l) = l.
Proof.
  intros l B L. destruct l as [| a [| b [| c [| d [| e l]]]]]; try discriminate L. rewrite from_be_value by exact B.
  inversion B as [| ? ? Ha B1]; subst. inversion B1 as [| ? ? Hb B2]; subst. inversion B2 as [| ? ? Hc B3]; subst. inversion B3 as [| ? ? Hd _]; subst.
  unfold is_byte in *. unfold be_value. cbn [fold_left]. unfold HdrModel.be, to_be4. cbn [skipn Nat.sub]. rewrite !byte_eq by lia.
  set (v := (((0 * 256 + a) * 256 + b) * 256 + c) * 256 + d).
  assert (V0 : v / 256 ^ 0 mod 256 = d).
  { rewrite Z.pow_0_r, Z.div_1_r. symmetry. apply (Z.mod_unique v 256 (((0 * 256 + a) * 256 + b) * 256 + c) d); [left; lia | unfold v; ring]. }
  assert (V1 : v / 256 ^ 1 mod 256 = c).
  { rewrite <- (Z.div_unique v (256 ^ 1) (((0 * 256 + a) * 256 + b) * 256 + c) d); [| left; cbn; lia | unfold v; change (256 ^ 1) with 256; ring].
    symmetry. apply (Z.mod_unique _ 256 ((0 * 256 + a) * 256 + b) c); [left; lia | ring]. }
  assert (V2 : v / 256 ^ 2 mod 256 = b).
  { rewrite <- (Z.div_unique v (256 ^ 2) ((0 * 256 + a) * 256 + b) (c * 256 + d)); [| left; change (256 ^ 2) with 65536; lia | unfold v; change (256 ^ 2) with (256 * 256); ring].
    symmetry. apply (Z.mod_unique _ 256 (0 * 256 + a) b); [left; lia | ring]. }
  assert (V3 : v / 256 ^ 3 mod 256 = a).
  { rewrite <- (Z.div_unique v (256 ^ 3) (0 * 256 + a) ((b * 256 + c) * 256 + d)); [| left; change (256 ^ 3) with 16777216; lia | unfold v; change (256 ^ 3) with (256 * 256 * 256); ring].
    rewrite Z.mod_small; lia. }
  rewrite V0, V1, V2, V3. reflexivity.
Qed.

Lemma rd_split : forall n d v r, bytes d -> rd n d = Some (v, r) -> exists l, d = l ++ r /\ length l = n /\ v = from_be l /\ bytes l.
Proof.
  intros n d v r B E. unfold HdrModel.rd in E. destruct (Nat.ltb_spec (length d) n); [discriminate |].
  assert (Ev : v = from_be (firstn n d)) by congruence. assert (Er : r = skipn n d) by congruence. exists (firstn n d). subst r.
  rewrite firstn_skipn, firstn_length. repeat split; [lia | exact Ev |]. unfold bytes in *. rewrite <- (firstn_skipn n d) in B. apply Forall_app in B. apply B.
Qed.

Lemma box_shape : forall max d h r, bytes d -> 0 <= max -> read_box max d = (Some h, r) ->
  exists l x, d = l ++ be 4 (b_ty h) ++ x ++ r /\ length l = 4%nat /\ (x = [] \/ length x = 8%nat) /\ bytes r /\
    0 <= b_length h < 2 ^ 32 /\ b_header h = 8 + Z.of_nat (length x).
Proof.
  intros max d h r B Hmax. unfold read_box. destruct (rd 4 d) as [[len d1] |] eqn:E1; [| discriminate].
  destruct (rd_inv _ _ _ _ B E1) as (H1 & B1 & _). destruct (rd_split _ _ _ _ B E1) as (l1 & D1 & L1 & V1 & Bl1).
  destruct (rd 4 d1) as [[ty d2] |] eqn:E2; [| discriminate].
  destruct (rd_inv _ _ _ _ B1 E2) as (H2 & B2 & _). destruct (rd_split _ _ _ _ B1 E2) as (l2 & D2 & L2 & V2 & Bl2).
  change (256 ^ Z.of_nat 4) with (2 ^ 32) in *.
  assert (S0 : d = l1 ++ be 4 ty ++ d2) by (rewrite V2, be_from by assumption; rewrite D1, D2; reflexivity).
  destruct (Z.eqb_spec len 0).
  { destruct (Z.eqb_spec max 0); [discriminate |]. destruct (Z.ltb_spec (2 ^ 32 - 1) max); [discriminate |]. intros E.
    assert (h = mkBox max ty 8) as -> by congruence. assert (r = d2) as -> by congruence. exists l1, []. cbn [b_ty b_length b_header app length].
    split; [exact S0 |]. split; [exact L1 |]. split; [left; reflexivity |]. split; [exact B2 |]. split; [lia | reflexivity]. }
  destruct (Z.eqb_spec len 1).
  { destruct (rd 4 d2) as [[high d3] |] eqn:E3; [| discriminate].
    destruct (rd_inv _ _ _ _ B2 E3) as (H3 & B3 & _). destruct (rd_split _ _ _ _ B2 E3) as (l3 & D3 & L3 & V3 & Bl3).
    destruct (rd 4 d3) as [[low d4] |] eqn:E4; [| discriminate].
    destruct (rd_inv _ _ _ _ B3 E4) as (H4 & B4 & _). destruct (rd_split _ _ _ _ B3 E4) as (l4 & D4 & L4 & V4 & Bl4).
    destruct (negb (high =? 0)); [discriminate |]. intros E.
    assert (h = mkBox low ty 16) as -> by congruence. assert (r = d4) as -> by congruence. exists l1, (l3 ++ l4). cbn [b_ty b_length b_header].
    split; [rewrite S0, D3, D4, <- !app_assoc; reflexivity |]. split; [exact L1 |].
    assert (length (l3 ++ l4) = 8%nat) as -> by (rewrite app_length; lia). split; [right; reflexivity |]. split; [exact B4 |]. split; [| reflexivity].
    change (256 ^ Z.of_nat 4) with (2 ^ 32) in *. lia. }
  intros E. assert (h = mkBox len ty 8) as -> by congruence. assert (r = d2) as -> by congruence. exists l1, []. cbn [b_ty b_length b_header app length].
  split; [exact S0 |]. split; [exact L1 |]. split; [left; reflexivity |]. split; [exact B2 |]. split; [lia | reflexivity].
Qed.

Lemma bytes_split : forall n d, bytes d -> bytes (firstn n d) /\ bytes (skipn n d).
Proof. intros n d B. unfold bytes in *. rewrite <- (firstn_skipn n d) in B. apply Forall_app in B. exact B. Qed.

Lemma wide_box : forall l x r n, wide_body (firstn n r) -> (x = [] \/ length x = 8%nat) -> Wide (l ++ be 4 PCLR ++ x ++ r).
Proof.
  intros l x r n (hi & lo & m & b & E & Hm) Hx. exists l, x, hi, lo, m, (b ++ skipn n r). split; [| split; assumption].
  rewrite <- (firstn_skipn n r) at 1. rewrite E. cbn [app]. reflexivity.
Qed.

Lemma jp2h_out : forall fuel i j b, Good j -> bytes b -> (length b <= fuel)%nat ->
  Out (Bad b) (fun r => Good (snd r)) (jp2h_boxes checks fuel i j b).
Proof.
  induction fuel as [| fuel IH]; intros i j b G B L.
  - destruct b as [| x b]; [exact G | cbn [length] in L; lia].
  - destruct b as [| x0 b0]; [exact G |]. set (b := x0 :: b0) in *. cbn [jp2h_boxes]. unfold b at 1.
    destruct (read_box 0 b) as [[h |] r] eqn:E; [| exact I].
    destruct (box_shape 0 b h r B ltac:(lia) E) as (l & x & D & Ll & Hx & Br & Hlen & Hhd).
    destruct (Z.ltb_spec (b_length h) (b_header h)) as [| Hle]; [exact I |].
    unfold content_length. assert (b_length h <? b_header h = false) as -> by (apply Z.ltb_ge; exact Hle). rewrite andb_false_r.
    set (n := u32 (b_length h - b_header h)). destruct (Z.ltb_spec (zlen r) n); [exact I |]. cbv zeta.
    destruct (bytes_split (Z.to_nat n) r Br) as [Bf Bs].
    assert (Lr : (length (skipn (Z.to_nat n) r) <= fuel)%nat).
    { rewrite skipn_length. rewrite D in L. rewrite !app_length, be_len in L by lia. lia. }
    assert (W2 : Bad (skipn (Z.to_nat n) r) -> Bad b).
    { intros [C W]. split; [exact C |]. rewrite D. rewrite !app_assoc. apply wide_l. rewrite <- (firstn_skipn (Z.to_nat n) r). apply wide_l. exact W. }
    eapply (out_bind _ _ _ Good).
    + destruct (image_header (b_ty h)); [| apply good_img; exact G].
      eapply out_weak; [| | apply image_out; [exact G | exact Bf]]; [| auto].
      intros (C & T & W). split; [exact C |]. change (Wide b). rewrite D, T. apply (wide_box l x r (Z.to_nat n)); assumption.
    + intros j1 G1. eapply out_weak; [exact W2 | | apply IH; assumption]. auto.
Qed.

Lemma content_out : forall t j b, Good j -> bytes b ->
  Out (Bad b \/ (checks = true /\ t = PCLR /\ wide_body b)) Good (read_content checks t j b).
Proof.
  intros t j b G B. unfold read_content. destruct (t =? JP).
  { unfold read_jp. destruct (negb _); [exact I |]. destruct (Z.eqb_spec (zlen b) 4) as [L |]; cbn [negb]; [| exact I]. unfold zlen in L.
    apply out_want; [assumption | lia | intros m b1 _ _ _]. destruct (negb _); [exact I | apply good_state; exact G]. }
  destruct (t =? FTYP).
  { unfold read_ftyp. destruct (negb _); [exact I |]. destruct (Z.ltb_spec (zlen b) 8) as [| L]; [exact I |]. unfold zlen in L.
    apply out_want; [assumption | lia | intros br b1 _ B1 L1]. apply out_want; [assumption | lia | intros mv b2 _ B2 L2].
    destruct (negb _); [exact I |].
    assert (Q : forall P n d, bytes d -> (4 * n <= length d)%nat -> Out P (fun _ => True) (read_words n d)).
    { clear. induction n as [| n IH]; intros d B L; [exact I |]. cbn [read_words]. apply out_want; [assumption | lia | intros v d' _ B' L'].
      eapply out_bind; [apply IH; [assumption | lia] | intros; exact I]. }
    eapply out_bind; [apply Q; [assumption |] |].
    - rewrite Z.shiftr_div_pow2 by lia. change (2 ^ 2) with 4. unfold zlen. pose proof (Z.div_mod (Z.of_nat (length b2)) 4 ltac:(lia)).
      pose proof (Z.mod_pos_bound (Z.of_nat (length b2)) 4 ltac:(lia)). lia.
    - intros cl _. apply good_state, good_ftyp, G. }
  destruct (t =? JP2H).
  { unfold read_jp2h. destruct (negb _); [exact I |]. eapply (out_bind _ _ _ (fun r => Good (snd r))).
    - eapply out_weak; [| | apply jp2h_out; [apply good_img; exact G | exact B | lia]]; auto.
    - intros [i j1] G1. cbn [snd] in G1. destruct (negb i); [exact I |]. apply good_jp2h, good_state, G1. }
  eapply out_weak; [| | apply image_out; assumption]; auto.
Qed.

Lemma none_suffix : forall max d r, read_box max d = (None, r) -> bytes d -> bytes r /\ exists a, d = a ++ r.
Proof.
  intros max d r. unfold read_box. destruct (rd 4 d) as [[len d1] |] eqn:E1; [| intros E B; assert (r = []) as -> by congruence; split; [constructor | exists d; rewrite app_nil_r; reflexivity]].
  intros E B. destruct (rd_split _ _ _ _ B E1) as (l1 & D1 & _). destruct (rd_inv _ _ _ _ B E1) as (_ & B1 & _).
  destruct (rd 4 d1) as [[ty d2] |] eqn:E2; [| assert (r = []) as -> by congruence; split; [constructor | exists d; rewrite app_nil_r; reflexivity]].
  destruct (rd_split _ _ _ _ B1 E2) as (l2 & D2 & _). destruct (rd_inv _ _ _ _ B1 E2) as (_ & B2 & _).
  destruct (len =? 0).
  { assert (r = d2) as -> by (destruct (max =? 0); [congruence |]; destruct (2 ^ 32 - 1 <? max); congruence). split; [exact B2 |].
    exists (l1 ++ l2). rewrite D1, D2, <- app_assoc. reflexivity. }
  destruct (len =? 1); [| discriminate].
  destruct (rd 4 d2) as [[high d3] |] eqn:E3; [| assert (r = []) as -> by congruence; split; [constructor | exists d; rewrite app_nil_r; reflexivity]].
  destruct (rd_split _ _ _ _ B2 E3) as (l3 & D3 & _). destruct (rd_inv _ _ _ _ B2 E3) as (_ & B3 & _).
  destruct (rd 4 d3) as [[low d4] |] eqn:E4; [| assert (r = []) as -> by congruence; split; [constructor | exists d; rewrite app_nil_r; reflexivity]].
  destruct (rd_split _ _ _ _ B3 E4) as (l4 & D4 & _). destruct (rd_inv _ _ _ _ B3 E4) as (_ & B4 & _).
  destruct (negb (high =? 0)); [| discriminate]. assert (r = d4) as -> by congruence. split; [exact B4 |].
  exists (l1 ++ l2 ++ l3 ++ l4). rewrite D1, D2, D3, D4, <- !app_assoc. reflexivity.
Qed.

Lemma header_out : forall fuel j d, Good j -> bytes d -> (length d < fuel)%nat ->
  Out (Bad d) (fun r => Good (fst r) /\ exists a, d = a ++ snd r) (header_boxes checks fuel j d).
Proof.
  induction fuel as [| fuel IH]; intros j d G B L; [lia |]. cbn [header_boxes].
  destruct (read_box (zlen d) d) as [[h |] r] eqn:E.
  2: { split; [exact G |]. destruct (none_suffix _ _ _ E B) as [_ S]. exact S. }
  destruct (box_shape (zlen d) d h r B (zlen_nonneg _ d) E) as (l & x & D & Ll & Hx & Br & Hlen & Hhd).
  assert (Suf : exists a, d = a ++ r) by (exists (l ++ be 4 (b_ty h) ++ x); rewrite D, <- !app_assoc; reflexivity).
  destruct (b_ty h =? JP2C).
  { destruct (has (j_state j) HEADER); [| exact I]. split; [apply good_state; exact G | exact Suf]. }
  destruct (b_length h =? 0); [exact I |]. destruct (Z.ltb_spec (b_length h) (b_header h)) as [| Hle]; [exact I |].
  unfold content_length. assert (b_length h <? b_header h = false) as -> by (apply Z.ltb_ge; exact Hle). rewrite andb_false_r.
  set (n := u32 (b_length h - b_header h)). cbv zeta.
  destruct (bytes_split (Z.to_nat n) r Br) as [Bf Bs].
  assert (Lr : (length (skipn (Z.to_nat n) r) < fuel)%nat).
  { rewrite skipn_length. rewrite D in L. rewrite !app_length, be_len in L by lia. lia. }
  assert (W2 : Bad (skipn (Z.to_nat n) r) -> Bad d).
  { intros [C W]. split; [exact C |]. rewrite D. rewrite !app_assoc. apply wide_l. rewrite <- (firstn_skipn (Z.to_nat n) r). apply wide_l. exact W. }
  assert (Next : forall j1, Good j1 -> Out (Bad d) (fun r => Good (fst r) /\ exists a, d = a ++ snd r) (header_boxes checks fuel j1 (skipn (Z.to_nat n) r))).
  { intros j1 G1. eapply out_weak; [exact W2 | | apply IH; assumption]. intros [j2 r2] [G2 (a & Ea)]. cbn [fst snd] in *. split; [exact G2 |].
    exists (l ++ be 4 (b_ty h) ++ x ++ firstn (Z.to_nat n) r ++ a). rewrite <- !app_assoc, <- Ea, firstn_skipn. exact D. }
  destruct (file_header (b_ty h) || image_header (b_ty h)).
  - destruct (negb (file_header (b_ty h)) && negb (has (j_state j) HEADER)).
    + destruct (zlen r <? n); [exact I | apply Next, good_state, G].
    + destruct (zlen r <? n); [exact I |]. eapply out_bind; [| intros j1 G1; apply Next; exact G1].
      eapply out_weak; [| | apply content_out; [exact G | exact Bf]]; [| auto].
      intros [[C W] | (C & T & W)]; (split; [exact C |]).
      * rewrite D. rewrite !app_assoc. apply wide_l. rewrite <- (firstn_skipn (Z.to_nat n) r). apply wide_r. exact W.
      * rewrite D, T. apply (wide_box l x r (Z.to_nat n)); assumption.
  - destruct (negb _); [exact I |]. destruct (negb _); [exact I |]. destruct (zlen r <? n); [| apply Next, good_state, G].
    destruct (has _ _); [| exact I]. split; [apply good_state; exact G | exact Suf].
Qed.

Theorem header_safe : forall d, bytes d ->
  Out (Bad d) (fun r => Good (fst r) /\ j_has_ihdr (fst r) = true /\ j_has_jp2h (fst r) = true /\ exists a, d = a ++ snd r) (read_header checks d).
Proof.
  intros d B. unfold read_header. eapply out_bind; [apply header_out; [apply good_created | exact B | lia] |].
  intros [j r] [G S]. cbn [fst snd] in *. destruct (j_has_jp2h j) eqn:E1; cbn [negb]; [| exact I]. destruct (j_has_ihdr j) eqn:E2; cbn [negb]; [| exact I].
  cbn [Out fst snd]. repeat split; try assumption; apply G; assumption.
Qed.

End Checks.
