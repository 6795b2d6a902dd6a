(** Property C59: the samples of a tile, through all stages of the codec. *)

From Coq Require Import ZArith List Bool Arith Lia ZifyNat.
From Verif Require Import I32 Ints Mem MathModel MathProps BioSpec GeomModel GeomProofs GeomCover GeomProps TgtModel T2PacketModel T1Model T1Props CblkModel
  PiModel PiSpec PiDeliver PiProps PacketsModel PacketsProps DwtModel DwtTile DwtProps MctModel MctProps ShiftModel ShiftProps TileModel TileGeom TileProofs TileProps
  SampleModel SampleDwt SampleProofs.
Import ListNotations.
Local Open Scope Z_scope.

(** ** Coefficients *)

(** However the samples are chosen, the coefficients of a band are bounded. *)
Theorem c59_coefficients : forall T S I P mct img tmp, wf T -> sizes_ok T S -> samples_ok T I P img -> levels_ok T P -> mct_ok T mct ->
  exists coef, analyse T I mct tmp img = Some coef /\
  forall c r comp b x y, resolution T c r -> tile_comp T c = Some comp -> In b (band_numbers r) -> inside (band_rect comp (nres (par T c)) r b) x y ->
    Z.abs (coef c (home comp (nres (par T c)) r b x y)) <= band_bound (peak I mct c) (nres (par T c)) r b.
Proof.
  intros T S I P mct img tmp HW HZ HS HL HM. destruct (transformed T I P mct img HW HS HL HM tmp) as (d & coef & _ & EA & HT).
  { intros c comp Hc E. destruct (HZ c Hc) as (_ & _ & _ & _ & _ & A). apply A, E. }
  exists coef. split; [exact EA |]. intros c r comp b x y [Hc Hr] E Hb Hi. apply (proj2 (HT c comp Hc E)); assumption.
Qed.

(** The bit-planes of a band are enough for all coefficients it may have. *)
Definition enough (T : tile) (S : Z -> style) (I : Z -> info) (mct : bool) : Prop :=
  forall c r b, resolution T c r -> In b (band_numbers r) -> band_bound (peak I mct c) (nres (par T c)) r b < 2 ^ planes (S c) r b.

Theorem c59_fit : forall T S I P mct img tmp coef, wf T -> sizes_ok T S -> samples_ok T I P img -> levels_ok T P -> mct_ok T mct -> enough T S I mct ->
  analyse T I mct tmp img = Some coef -> fits_planes T S coef.
Proof.
  intros T S I P mct img tmp coef HW HZ HS HL HM HE EA. destruct (c59_coefficients T S I P mct img tmp HW HZ HS HL HM) as (coef' & EA' & HC). assert (coef' = coef) as -> by congruence.
  intros c r comp b x y Hr E Hb Hi. eapply Z.le_lt_trans; [apply (HC c r comp b x y Hr E Hb Hi) | apply HE; assumption].
Qed.

(** What the encoder chooses (one level at most): without the component transform
    two guard bits are enough, with it three. *)
Theorem c59_guard_bits : forall T S I mct, mct_ok T mct ->
  (forall c, 0 <= c < count T -> 1 <= nres (par T c) <= 2 /\ 1 <= i_prec (I c) /\ s_expn (S c) = explicit_expn (nres (par T c)) (i_prec (I c)) /\ (if mct then 3 else default_guard) <= s_guard (S c)) ->
  (mct = true -> i_prec (I 1) = i_prec (I 0) /\ i_prec (I 2) = i_prec (I 0)) ->
  enough T S I mct.
Proof.
  intros T S I mct HM H HQ c r b [Hc Hr] Hb. destruct (H c Hc) as (N & P & X & G). unfold default_guard in G. unfold planes. rewrite X.
  set (p := i_prec (I c)) in *. set (g := s_guard (S c)) in *.
  assert (K : 1 <= peak I mct c /\ 4 * peak I mct c <= 2 ^ (p + g - 1)).
  { assert (A : forall a, 0 <= a -> 2 ^ (a + 1) = 2 * 2 ^ a) by (intros a Ha; rewrite Z.pow_add_r by lia; lia).
    assert (B : forall a b, 0 <= a <= b -> 1 <= 2 ^ a <= 2 ^ b) by (intros a b' Hab; pose proof (Z.pow_le_mono_r 2 a b'); pose proof (Z.pow_pos_nonneg 2 a); lia).
    pose proof (A (p - 1) ltac:(lia)) as A1. replace (p - 1 + 1) with p in A1 by lia. pose proof (A p ltac:(lia)) as A2. pose proof (A (p + 1) ltac:(lia)) as A3. replace (p + 1 + 1) with (p + 2) in A3 by lia. pose proof (B (p - 1) (p - 1) ltac:(lia)) as B1.
    unfold peak, widest. destruct mct; cbn [andb].
    - pose proof (B (p + 2) (p + g - 1) ltac:(lia)) as B2. destruct (HQ eq_refl) as [Q1 Q2]. rewrite Q1, Q2, !Z.max_id. destruct (Z.leb_spec c 2) as [L | L]; [| fold p; lia].
      assert (EP : p = i_prec (I 0)) by (subst p; assert (c = 0 \/ c = 1 \/ c = 2) as [-> | [-> | ->]] by lia; congruence). rewrite <- EP. destruct (c =? 0); lia.
    - fold p. pose proof (B (p + 1) (p + g - 1) ltac:(lia)) as B2. lia. }
  destruct K as [K1 K2]. set (M := peak I mct c) in *.
  assert (E2 : forall q, 0 <= q -> 2 ^ (p + q + g - 1) = 2 ^ q * 2 ^ (p + g - 1)).
  { intros q Hq. rewrite <- Z.pow_add_r; [f_equal; lia | lia | destruct mct; lia]. }
  assert (N' : nres (par T c) = 1 \/ nres (par T c) = 2) by lia. clear HM H HQ X.
  assert (Q : (r = 0 /\ b = 0) \/ (r = 1 /\ nres (par T c) = 2 /\ (b = 0 \/ b = 1 \/ b = 2))).
  { unfold band_numbers in Hb. destruct (Z.eqb_spec r 0) as [-> | Z0]; [left; destruct Hb as [<- | []]; lia | right]. destruct Hb as [<- | [<- | [<- | []]]]; lia. }
  assert (L : M <= lift M <= 2 * M /\ lift (lift M) < 4 * M /\ lift (2 * M) < 8 * M) by (unfold lift; lia).
  assert (X4 : explicit_expn 1 p = [p + 0 - (13 - 13)] /\ explicit_expn 2 p = [p + 0 - (13 - 13); p + 1 - (13 - 13); p + 1 - (13 - 13); p + 2 - (13 - 13)]) by (split; reflexivity).
  destruct X4 as [X1 X2]. assert (F : forall q, p + q - (13 - 13) + g - 1 = p + q + g - 1) by (intros; lia).
  destruct Q as [[-> ->] | (-> & -> & Q)].
  - unfold band_bound. cbn [Z.eqb]. destruct N' as [-> | ->]; [rewrite X1 | rewrite X2]; change (Z.to_nat 0) with 0%nat; cbn [nth]; rewrite F, E2 by lia; rewrite Z.pow_0_r.
    + change (low_bound M (Z.to_nat (1 - 1))) with M. lia.
    + change (low_bound M (Z.to_nat (2 - 1))) with (lift (lift M)). lia.
  - rewrite X2. unfold band_bound. cbn [Z.eqb]. change (low_bound M (Z.to_nat (2 - 1 - 1))) with M. unfold gained.
    destruct Q as [-> | [-> | ->]].
    + change (Z.to_nat (3 * (1 - 1) + 0 + 1)) with 1%nat. change (0 + 1) with 1. cbn [Z.eqb Pos.eqb nth]. rewrite F, E2 by lia. change (2 ^ 1) with 2. lia.
    + change (Z.to_nat (3 * (1 - 1) + 1 + 1)) with 2%nat. change (1 + 1) with 2. cbn [Z.eqb Pos.eqb nth]. rewrite F, E2 by lia. change (2 ^ 1) with 2. lia.
    + change (Z.to_nat (3 * (1 - 1) + 2 + 1)) with 3%nat. change (2 + 1) with 3. cbn [Z.eqb Pos.eqb nth]. rewrite F, E2 by lia. change (2 ^ 2) with 4. lia.
Qed.

(** ** Samples *)

Theorem c59_samples : forall T o S I P mct psize esize dsize csty nlay img tmp coef bufs cuts,
  wf T -> order_ok T o -> t_layers T = Z.of_nat nlay -> (1 <= nlay <= 999)%nat -> flags_ok S -> sizes_ok T S -> sets_up psize esize T S -> sets_up psize dsize T S ->
  samples_ok T I P img -> levels_ok T P -> mct_ok T mct -> analyse T I mct tmp img = Some coef -> fits_planes T S coef ->
  buffers_ok bufs -> all_passes psize esize T S coef bufs cuts nlay ->
  let es := enc_place psize esize T S coef bufs cuts in let ds := dec_place psize dsize T S in
  exists out, encodes T [all_of T o] out /\ decodes T [all_of T o] out /\
  (exists R, forall packno parts, concat (map snd parts) = out -> Forall (fun p => R * Z.of_nat (length (snd p)) <= fst p < 2 ^ 32) parts ->
    exists bytes es', write_parts csty packno (t_layers T) (or_none es) parts = Some (bytes, es')) /\
  forall packno parts bytes es' rest, concat (map snd parts) = out -> write_parts csty packno (t_layers T) (or_none es) parts = Some (bytes, es') -> Forall byte_range rest ->
  exists ds', read_packets (fun c => s_sty (S c)) csty (fun _ => true) (or_none ds) out (concat bytes ++ rest) = Some (ds', rest) /\
    forall buf d0, exists d', synthesise psize dsize T S I mct buf ds' d0 = Some d' /\
      forall c comp i, 0 <= c < count T -> tile_comp T c = Some comp -> 0 <= i < width (fst comp) * width (snd comp) -> d' c i = img c i.
Proof.
  intros T o S I P mct psize esize dsize csty nlay img tmp coef bufs cuts HW HO HN H9 HF HZ HUe HUd HS HL HM EA HP HB HC es ds.
  destruct (c58_tile T o S psize esize dsize csty nlay coef bufs cuts HW HO HN H9 HF HZ HUe HUd HP HB HC) as (_ & out & E & D & RM & TR).
  exists out. split; [exact E |]. split; [exact D |]. split; [exact RM |]. intros packno parts bytes es' rest EP HWr Hrest.
  destruct (TR packno parts bytes es' rest EP HWr Hrest) as (ds' & RD & SH). exists ds'. split; [exact RD |]. intros buf d0.
  apply (restored T I P mct img HW HS HL HM tmp) with (coef := coef); [| exact EA | exact SH].
  intros c comp Hc Ec. destruct (HZ c Hc) as (_ & _ & _ & _ & _ & A). apply A, Ec.
Qed.

(** ** Examples *)

(** A tile through the whole codec: one layer, one tile-part, the packets [out]. *)
Definition demo_count (T : tile) (S : Z -> style) (data : planes_t) (q : key) : nat :=
  let '(c, r, b0, k, j) := q in
  match tile_comp T c with
  | None => 0%nat
  | Some comp =>
      match res_bands 24 64 (par T c) (S c) comp r with
      | None => 0%nat
      | Some bs =>
          match find (fun b => b_no b =? b0) bs with
          | None => 0%nat
          | Some b => match nth_error (b_precs b) (Z.to_nat k) with
                      | None => 0%nat
                      | Some q => match code_block (S c) comp (nres (par T c)) r b (nth j (cblks q) ((0, 0), (0, 0))) (data c) zeroes with
                                  | None => 0%nat
                                  | Some kd => length (k_rates kd)
                                  end
                      end
          end
      end
  end.
Definition demo_encode (T : tile) (S : Z -> style) (out : list packet) (coef : planes_t) : option (list Z) :=
  match write_parts 0 0 1 (or_none (enc_place 24 64 T S coef (fun _ => zeroes) (fun q => [demo_count T S coef q]))) [(100000, out)] with
  | Some (bytes, _) => Some (concat bytes)
  | None => None
  end.
Definition demo_decode (T : tile) (S : Z -> style) (I : Z -> info) (mct : bool) (out : list packet) (bytes : list Z) : option planes_t :=
  match read_packets (fun c => s_sty (S c)) 0 (fun _ => true) (or_none (dec_place 24 88 T S)) out bytes with
  | Some (ds, []) => synthesise 24 88 T S I mct (fun _ => zeroes) ds (fun _ _ => 999)
  | _ => None
  end.
Definition demo_trip (T : tile) (S : Z -> style) (I : Z -> info) (mct : bool) (out : list packet) (img : planes_t) : option planes_t :=
  match analyse T I mct (fun _ => zeroes) img with
  | None => None
  | Some coef => match demo_encode T S out coef with Some bytes => demo_decode T S I mct out bytes | None => None end
  end.
Definition shown (n cs : Z) (d : option planes_t) : option (list (list Z)) := match d with Some d => Some (map (fun c => map (d c) (upto n)) (upto cs)) | None => None end.

(** Five by five pixels of eight bits, one level; the encoder's exponents. *)
Definition rgb_tile : tile := mkTile 0 0 5 5 1 [mkParams 1 1 [(15, 15); (15, 15)]; mkParams 1 1 [(15, 15); (15, 15)]; mkParams 1 1 [(15, 15); (15, 15)]].
Definition rgb_style (guard : Z) (_ : Z) : style := mkStyle 6 6 0 0 guard (explicit_expn 2 8).
Definition rgb_info (_ : Z) : info := mkInfo 0 8 128.
Definition rgb_out : list packet := [(0, 0, 0, 0); (0, 0, 1, 0); (0, 0, 2, 0); (0, 1, 0, 0); (0, 1, 1, 0); (0, 1, 2, 0)].
(** Blue and green, alternating so that the low band of [b - g] is as large as it gets. *)
Definition edge (i : Z) : bool := (i =? 0) || (i =? 4).
Definition harsh (c i : Z) : Z :=
  let plus := negb (xorb (edge (i mod 5)) (edge (i / 5))) in
  if c =? 0 then 0 else if c =? 1 then (if plus then 0 else 255) else (if plus then 255 else 0).

Example c59_example : shown 25 3 (demo_trip rgb_tile (rgb_style 3) rgb_info true rgb_out harsh) = shown 25 3 (Some harsh).
Proof. vm_compute. reflexivity. Qed.

(** Two levels, components of different sizes and signs, a tile off the origin. *)
Definition odd_tile : tile := mkTile 3 2 9 7 1 [mkParams 1 1 [(2, 2); (2, 2); (2, 2)]; mkParams 2 1 [(3, 3); (3, 3)]].
Definition odd_style (c : Z) : style := mkStyle 2 2 0 0 2 (explicit_expn 3 4).
Definition odd_info (c : Z) : info := if c =? 0 then mkInfo 0 4 8 else mkInfo 1 4 0.
Definition odd_out : list packet := flat_map (fun r => flat_map (fun c => if r <? nres (par odd_tile c) then map (fun k => (0, r, c, k)) (upto (wide odd_tile c r * high odd_tile c r)) else []) [0; 1]) [0; 1; 2].
Definition odd_img (c i : Z) : Z := if c =? 0 then (i * i * 7 + 3 * i) mod 16 else (i * 5) mod 16 - 8.
Example c59_example_levels :
  (tile_comp odd_tile 0, tile_comp odd_tile 1) = (Some ((3, 9), (2, 7)), Some ((2, 5), (2, 7))) /\
  option_map (fun d => (map (d 0) (upto 30), map (d 1) (upto 15))) (demo_trip odd_tile odd_style odd_info false odd_out odd_img) = Some (map (odd_img 0) (upto 30), map (odd_img 1) (upto 15)).
Proof. split; vm_compute; reflexivity. Qed.

(** ** The encoder's guard bits are too few for the component transform *)

(** With the encoder's exponents and its two guard bits, all other conditions of
    [c59_samples] kept, a coefficient does not fit, and the decoded red sample in
    the middle is not the encoded one. *)
Lemma rgb_wf : wf rgb_tile.
Proof.
  unfold wf. cbn [rgb_tile t_x0 t_x1 t_y0 t_y1 t_layers t_comps]. split; [lia |]. split; [lia |]. split; [lia |]. split; [lia |]. split; [lia |]. split; [cbn [length]; lia |]. split.
  - repeat constructor; cbn; lia.
  - exists 2, 1. assert (C3 : forall c, 0 <= c < 3 -> c = 0 \/ c = 1 \/ c = 2) by lia. split; [| split].
    + intros c Hc. destruct (C3 c Hc) as [-> | [-> | ->]]; vm_compute; discriminate.
    + intros c r [Hc Hr]. assert (N : nres (par rgb_tile c) = 2) by (destruct (C3 c Hc) as [-> | [-> | ->]]; reflexivity). assert (Hr2 : r = 0 \/ r = 1) by lia.
      destruct (C3 c Hc) as [-> | [-> | ->]], Hr2 as [-> | ->]; vm_compute; discriminate.
    + vm_compute. reflexivity.
Qed.

Theorem c59_guard_bits_refuted :
  wf rgb_tile /\ sizes_ok rgb_tile (rgb_style default_guard) /\ samples_ok rgb_tile rgb_info 8 harsh /\ levels_ok rgb_tile 8 /\ mct_ok rgb_tile true /\
  (exists coef, analyse rgb_tile rgb_info true (fun _ => zeroes) harsh = Some coef /\ ~ fits_planes rgb_tile (rgb_style default_guard) coef) /\
  exists d', demo_trip rgb_tile (rgb_style default_guard) rgb_info true rgb_out harsh = Some d' /\ (d' 0 12, harsh 0 12) = (72, 0).
Proof.
  assert (C3 : forall c, 0 <= c < count rgb_tile -> c = 0 \/ c = 1 \/ c = 2) by (unfold count, rgb_tile; cbn [t_comps length]; lia).
  assert (CE : forall c comp, 0 <= c < count rgb_tile -> tile_comp rgb_tile c = Some comp -> nres (par rgb_tile c) = 2 /\ comp = ((0, 5), (0, 5))).
  { intros c comp Hc E. assert (X : tile_comp rgb_tile c = Some ((0, 5), (0, 5)) /\ nres (par rgb_tile c) = 2) by (destruct (C3 c Hc) as [-> | [-> | ->]]; split; vm_compute; reflexivity). destruct X as [X Y]. split; [exact Y | congruence]. }
  split; [exact rgb_wf |]. split; [| split; [| split; [| split; [| split]]]].
  - intros c Hc. cbn [rgb_style s_cbw s_cbh s_roi]. split; [lia |]. split; [lia |]. split; [lia |]. split; [| split].
    + intros r Hr. assert (r = 1) as -> by (destruct (tile_comp_some rgb_tile c rgb_wf Hc) as (comp & E & _); destruct (CE c comp Hc E); lia). destruct (C3 c Hc) as [-> | [-> | ->]]; vm_compute; split; discriminate.
    + intros r b Hr Hb. assert (nres (par rgb_tile c) = 2) by (destruct (tile_comp_some rgb_tile c rgb_wf Hc) as (comp & E & _); destruct (CE c comp Hc E); lia).
      assert (r = 0 \/ r = 1) as [-> | ->] by lia; cbn [band_numbers Z.eqb In] in Hb; [destruct Hb as [<- | []] | destruct Hb as [<- | [<- | [<- | []]]]]; vm_compute; repeat split; discriminate.
    + intros comp E. destruct (CE c comp Hc E) as [_ ->]. vm_compute. discriminate.
  - intros c Hc. exists false. split; [reflexivity |]. split; [cbn; lia |]. split; [reflexivity |]. intros comp i E Hi. unfold sample, harsh.
    change (lowest false (i_prec (rgb_info c))) with 0. change (highest false (i_prec (rgb_info c))) with 255. destruct (negb (xorb (edge (i mod 5)) (edge (i / 5)))), (c =? 0), (c =? 1); lia.
  - split; [lia |]. intros c comp Hc E. destruct (CE c comp Hc E) as [-> ->]. split; [vm_compute; reflexivity |]. intros l Hl. assert (l = 0) as -> by lia. right; right; vm_compute; reflexivity.
  - intros _. split; [vm_compute; discriminate |]. intros c Hc. assert (c = 0 \/ c = 1 \/ c = 2) as [-> | [-> | ->]] by lia; repeat split.
  - destruct (analyse rgb_tile rgb_info true (fun _ => zeroes) harsh) as [coef |] eqn:E; [| exfalso].
    + exists coef. split; [reflexivity |]. intros F. assert (X : option_map (fun d => d 1 6) (analyse rgb_tile rgb_info true (fun _ => zeroes) harsh) = Some 575) by (vm_compute; reflexivity).
      rewrite E in X. cbn [option_map] in X. assert (X' : coef 1 6 = 575) by congruence.
      specialize (F 1 0 ((0, 5), (0, 5)) 0 1 1). change (home ((0, 5), (0, 5)) (nres (par rgb_tile 1)) 0 0 1 1) with 6 in F. rewrite X' in F.
      assert (575 < 512); [| lia]. apply F; [split; vm_compute; split; discriminate || reflexivity | reflexivity | left; reflexivity | split; split; vm_compute; discriminate || reflexivity].
    + assert (X : option_map (fun d => d 1 6) (analyse rgb_tile rgb_info true (fun _ => zeroes) harsh) = Some 575) by (vm_compute; reflexivity). rewrite E in X. discriminate X.
  - assert (X : option_map (fun d => d 0 12) (demo_trip rgb_tile (rgb_style default_guard) rgb_info true rgb_out harsh) = Some 72) by (vm_compute; reflexivity).
    destruct (demo_trip _ _ _ _ _ _) as [d' |]; [| discriminate X]. exists d'. split; [reflexivity |]. cbn [option_map] in X. assert (X' : d' 0 12 = 72) by congruence. rewrite X'. reflexivity.
Qed.

Print Assumptions c59_coefficients.
Print Assumptions c59_fit.
Print Assumptions c59_guard_bits.
Print Assumptions c59_samples.
Print Assumptions c59_guard_bits_refuted.
