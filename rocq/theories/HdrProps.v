(** C31: marker segments are read as written.  C45: unknown marker segments. *)

From Coq Require Import ZArith List Bool Lia.
From Verif Require Import Ints I32 Mem CioModel CioProps MathModel MathProps HdrModel HdrSpec HdrBytes HdrSegs HdrRun HdrMain.
Import ListNotations.
Local Open Scope Z_scope.

(** An encoder's main header is read back: image, tiles and components as they
    were; general parameters as they were; for each component its own
    quantisation and region shift, but the coding style of component 0. *)
Theorem c31_main_header : forall other ihdr reduce e old rest, enc_ok ihdr reduce e ->
  let T := e_tcp e in
  exists hd t, write_header e old = Some hd /\
    read_header other ihdr reduce (hd ++ be 2 SOT ++ rest) = Some (e_siz e, t, rest) /\
    t_csty t = t_csty T /\ t_prg t = t_prg T /\ t_layers t = t_layers T /\ t_mct t = t_mct T /\
    t_pocs t = (if has_poc e then t_pocs T else []) /\
    Z.of_nat (List.length (t_comps t)) = numcomps (e_siz e) /\
    forall c, 0 <= c < numcomps (e_siz e) ->
      same_style (at_ (t_comps T) 0) (at_ (t_comps t) c) /\ same_quant (at_ (t_comps T) c) (at_ (t_comps t) c) /\
      roishift (at_ (t_comps t) c) = roishift (at_ (t_comps T) c) /\
      dcshift (at_ (t_comps t) c) = shift_of (nth (Z.to_nat c) (comps (e_siz e)) (mkComp 0 0 0 0)).
Proof.
  intros other ihdr reduce e old rest Hok T. destruct (main_header other ihdr reduce e Hok old rest) as (hd & t & E1 & E2 & I).
  exists hd, t. split; [exact E1 |]. split; [exact E2 |]. destruct I as (A1 & A2 & A3 & A4 & A5 & A6 & A7).
  repeat (split; [assumption |]). exact A7.
Qed.

Lemma same_style_sym : forall a b, same_style a b -> same_style b a.
Proof.
  intros a b (S1 & S2 & S3 & S4 & S5 & S6 & S7). unfold same_style. repeat (split; [congruence |]). intros r Hr.
  destruct (S7 r ltac:(congruence)) as [P Q]. split; congruence.
Qed.
Lemma same_style_trans : forall a b c, same_style a b -> same_style b c -> same_style a c.
Proof.
  intros a b c (S1 & S2 & S3 & S4 & S5 & S6 & S7) (R1 & R2 & R3 & R4 & R5 & R6 & R7). unfold same_style. repeat (split; [congruence |]).
  intros r Hr. destruct (S7 r Hr) as [P Q]. destruct (R7 r ltac:(congruence)) as [P' Q']. split; congruence.
Qed.

(** When all components have one coding style, as with the parameters this
    library's encoder sets up, every component is read back entirely. *)
Theorem c31_one_style : forall other ihdr reduce e old rest, enc_ok ihdr reduce e ->
  (forall c, 0 <= c < numcomps (e_siz e) -> same_style (at_ (t_comps (e_tcp e)) 0) (at_ (t_comps (e_tcp e)) c)) ->
  exists hd t, write_header e old = Some hd /\
    read_header other ihdr reduce (hd ++ be 2 SOT ++ rest) = Some (e_siz e, t, rest) /\
    forall c, 0 <= c < numcomps (e_siz e) ->
      same_style (at_ (t_comps (e_tcp e)) c) (at_ (t_comps t) c) /\ same_quant (at_ (t_comps (e_tcp e)) c) (at_ (t_comps t) c) /\
      roishift (at_ (t_comps t) c) = roishift (at_ (t_comps (e_tcp e)) c).
Proof.
  intros other ihdr reduce e old rest Hok Hs. destruct (c31_main_header other ihdr reduce e old rest Hok) as (hd & t & E1 & E2 & _ & _ & _ & _ & _ & _ & H).
  exists hd, t. split; [exact E1 |]. split; [exact E2 |]. intros c Hc. destruct (H c Hc) as (H1 & H2 & H3 & _). split; [| tauto].
  eapply same_style_trans; [apply same_style_sym, Hs, Hc | exact H1].
Qed.

(** The COC segment of a component holds the coding style of component 0: a
    component with another one is never read back. *)
Theorem c31_coc_refuted : forall other ihdr reduce e old rest c, enc_ok ihdr reduce e -> 0 <= c < numcomps (e_siz e) ->
  ~ same_style (at_ (t_comps (e_tcp e)) 0) (at_ (t_comps (e_tcp e)) c) ->
  exists hd t, write_header e old = Some hd /\
    read_header other ihdr reduce (hd ++ be 2 SOT ++ rest) = Some (e_siz e, t, rest) /\
    ~ same_style (at_ (t_comps (e_tcp e)) c) (at_ (t_comps t) c).
Proof.
  intros other ihdr reduce e old rest c Hok Hc Hn. destruct (c31_main_header other ihdr reduce e old rest Hok) as (hd & t & E1 & E2 & _ & _ & _ & _ & _ & _ & H).
  exists hd, t. split; [exact E1 |]. split; [exact E2 |]. intros S. apply Hn. destruct (H c Hc) as (H1 & _).
  eapply same_style_trans; [exact H1 | apply same_style_sym; exact S].
Qed.

(** Changes of progression order. *)
Theorem c31_poc : forall n t ps, 1 <= n <= 16384 -> t_layers t <= 65535 -> (0 < List.length ps)%nat ->
  (List.length ps + List.length (t_pocs t) < 32)%nat ->
  Forall (fun p => poc_ok n (t_layers t) p /\ poc_fits n p) ps ->
  write_poc n ps = be 2 POC ++ be 2 (Z.of_nat (List.length (skipn 4 (write_poc n ps))) + 2) ++ skipn 4 (write_poc n ps) /\
  exists t', read_poc n t (skipn 4 (write_poc n ps)) = Some t' /\ t_pocs t' = t_pocs t ++ ps /\ t_comps t' = t_comps t.
Proof.
  intros n t ps Hn Hl Hp Hk F. destruct (write_poc_seg n ps ltac:(lia)) as [W _]. rewrite W.
  assert (E : skipn 4 (seg (POC, poc_body n ps)) = poc_body n ps) by reflexivity. rewrite E. split; [reflexivity |].
  rewrite read_poc_write by assumption. eexists. split; [reflexivity |]. split; reflexivity.
Qed.

(** With 256 components the end component 256 of a progression is written as 0,
    and read as 0: the progression covers no component. *)
Theorem c31_poc_256_refuted : forall t p, t_pocs t = [] -> t_layers t <= 65535 -> poc_ok 256 (t_layers t) p -> p_comp1 p = 256 ->
  exists t', read_poc 256 t (skipn 4 (write_poc 256 [p])) = Some t' /\ map p_comp1 (t_pocs t') = [0].
Proof.
  intros t p Ht Hl (P1 & P2 & P3 & P4 & P5 & P6) Hc.
  set (p' := mkPoc (p_res0 p) (p_comp0 p) (p_lay1 p) (p_res1 p) 0 (p_prg p)).
  assert (E : write_poc 256 [p] = write_poc 256 [p']).
  { unfold write_poc. cbn [flat_map List.length]. unfold write_poc1. rewrite Hc. reflexivity. }
  rewrite E. destruct (c31_poc 256 t [p'] ltac:(lia) Hl ltac:(cbn; lia) ltac:(rewrite Ht; cbn; lia)) as (_ & t' & R & T' & _).
  { constructor; [| constructor]. split; [| intros _; cbn; lia]. unfold poc_ok, p'. cbn [p_res0 p_comp0 p_lay1 p_res1 p_comp1 p_prg]. lia. }
  exists t'. split; [exact R |]. rewrite T', Ht. reflexivity.
Qed.

Lemma rd_any : forall n v r, (1 <= n <= 4)%nat -> rd n (be n v ++ r) = Some (from_be (be n v), r).
Proof.
  intros n v r Hn. unfold rd. rewrite app_length, be_len by lia. destruct (Nat.ltb_spec (n + List.length r) n); [lia |].
  rewrite firstn_app, skipn_app, be_len, Nat.sub_diag by lia. rewrite (firstn_all2 (be n v)), (skipn_all2 (be n v)) by (rewrite be_len; lia).
  cbn [firstn skipn app]. rewrite app_nil_r. reflexivity.
Qed.

(** A custom component transform is written as 2, which the reader refuses. *)
Theorem c31_custom_mct_refuted : forall reduce t u l, t_mct t = 2 -> write_cod t = Some l -> read_cod reduce u (skipn 4 l) = None.
Proof.
  intros reduce t u l Hm W. unfold write_cod in W. cbv zeta in W. destruct (write_sp _ _) as [b [[| z | z] |]]; try discriminate.
  assert (E : l = be 2 COD ++ be 2 (u32 (u32 (9 + sp_size (at_ (t_comps t) 0)) - 2)) ++ be 1 (t_csty t) ++ be 1 (u32 (t_prg t)) ++
    be 2 (t_layers t) ++ be 1 (t_mct t) ++ b) by congruence. clear W. subst l. rewrite Hm.
  match goal with |- context [skipn 4 ?x] => change (skipn 4 x) with (be 1 (t_csty t) ++ be 1 (u32 (t_prg t)) ++ be 2 (t_layers t) ++ be 1 2 ++ b) end.
  unfold read_cod. destruct (_ <? 5); [reflexivity |]. rewrite rd_any by lia. destruct (negb _); [reflexivity |]. rewrite rd_any by lia.
  rewrite rd_any by lia. destruct (_ || _); [reflexivity |]. rewrite rd1 by lia. reflexivity.
Qed.

(** A comment of 65532 bytes: its length does not fit, and the header is refused. *)
Theorem c31_long_comment_refuted : forall other ihdr reduce fuel h s text rest, h_siz h = Some s -> Z.of_nat (List.length text) = 65532 ->
  read_segments other ihdr reduce (S fuel) COM h (skipn 2 (write_com text) ++ rest) = None.
Proof.
  intros other ihdr reduce fuel h s text rest Hs Hl. unfold write_com. rewrite Hl.
  change (skipn 2 (be 2 COM ++ be 2 (u32 (u32 (u32 65532 + 6) - 2)) ++ be 2 1 ++ text)) with (be 2 0 ++ be 2 1 ++ text).
  cbn [read_segments]. change (COM =? SOT) with false. change (COM <? 65280) with false. change (known COM) with true. cbv iota.
  unfold allowed. rewrite Hs. change (negb (negb ((COM =? SIZ) || (COM =? PLT) || (COM =? PPT) || (COM =? SOP)))) with false. cbv iota.
  rewrite <- !app_assoc, rd2 by lia. reflexivity.
Qed.

(** SOT: tile, length of the tile-part, its number, and the number of tile-parts. *)
Theorem c31_sot : forall tile psot part parts, 0 <= tile < 65536 -> 0 <= psot < 2 ^ 32 -> 0 <= part < 256 -> 0 <= parts < 256 ->
  get_sot_values (skipn 4 (write_sot tile psot part parts)) = Some (tile, psot, part, parts).
Proof.
  intros tile psot part parts H1 H2 H3 H4. unfold write_sot.
  change (skipn 4 (be 2 SOT ++ be 2 10 ++ be 2 tile ++ be 4 psot ++ be 1 part ++ be 1 parts)) with (be 2 tile ++ be 4 psot ++ be 1 part ++ be 1 parts).
  unfold get_sot_values. rewrite !app_length, !be_len by lia. cbn [Nat.add Nat.eqb negb].
  rewrite rd2, rd4, rd1 by lia. rewrite <- (app_nil_r (be 1 parts)), rd1 by lia. reflexivity.
Qed.

(** ... but 256 tile-parts are written as 0. *)
Theorem c31_sot_256_refuted : forall tile psot part, 0 <= tile < 65536 -> 0 <= psot < 2 ^ 32 -> 0 <= part < 256 ->
  get_sot_values (skipn 4 (write_sot tile psot part 256)) = Some (tile, psot, part, 0).
Proof. intros. exact (c31_sot tile psot part 0 ltac:(lia) ltac:(lia) ltac:(lia) ltac:(lia)). Qed.

(** ** C45 *)

(** Words of an unknown segment that cannot be mistaken for a known marker. *)
Definition plain (w : Z * Z) : Prop := is_byte (fst w) /\ is_byte (snd w) /\ known (256 * fst w + snd w) = false.
Definition word_bytes (ws : list (Z * Z)) : list Z := flat_map (fun w => [fst w; snd w]) ws.

Lemma from_be2 : forall a b, is_byte a -> is_byte b -> from_be [a; b] = 256 * a + b.
Proof. intros a b Ha Hb. rewrite from_be_value by (constructor; [exact Ha |]; constructor; [exact Hb | constructor]). unfold be_value. cbn [fold_left]. lia. Qed.

Lemma unk_skip : forall h s ws d, h_siz h = Some s -> Forall plain ws -> read_unk h (word_bytes ws ++ d) = read_unk h d.
Proof.
  intros h s ws d Hs F. induction ws as [| [a b] ws IH]; [reflexivity |]. inversion F as [| ? ? (Ha & Hb & Hk) Fl]; subst.
  cbn [word_bytes flat_map app fst snd] in *. cbn [read_unk]. rewrite from_be2 by assumption. rewrite Hk, Hs. cbn [negb].
  destruct (256 * a + b <? 65280); apply IH; exact Fl.
Qed.

(** An unknown marker followed by an even number of bytes none of whose words is
    a known marker is skipped: reading goes on at the next marker. *)
Theorem c45_unknown_skipped : forall other ihdr reduce fuel u h s ws m d, h_siz h = Some s -> 65280 <= u -> known u = false ->
  Forall plain ws -> known m = true -> allowed h m = true ->
  read_segments other ihdr reduce (S fuel) u h (word_bytes ws ++ be 2 m ++ d) = read_segments other ihdr reduce (S fuel) m h d.
Proof.
  intros other ihdr reduce fuel u h s ws m d Hs Hu Ku F Km Ha. pose proof (known_bound m Km) as Hm. cbn [read_segments].
  destruct (Z.eqb_spec u SOT) as [-> | _]; [discriminate |]. destruct (Z.ltb_spec u 65280); [lia |]. rewrite Ku.
  rewrite (unk_skip h s) by assumption.
  assert (E : read_unk h (be 2 m ++ d) = Some (m, d)).
  { change (be 2 m ++ d) with (byte m 1 :: byte m 0 :: d). cbn [read_unk]. rewrite from_be2 by apply byte_range.
    assert (V : 256 * byte m 1 + byte m 0 = m) by (rewrite <- from_be2 by apply byte_range; exact (be_value_be 2 m ltac:(lia) ltac:(cbn; lia))).
    rewrite V. destruct (Z.ltb_spec m 65280); [lia |]. rewrite Km, Ha. reflexivity. }
  rewrite E. destruct (Z.ltb_spec m 65280); [lia |]. rewrite Km. destruct (m =? SOT); reflexivity.
Qed.

(** ... but the length of the segment is not looked at: one of odd length makes
    the reader miss the marker that follows, and the header is refused although
    it is accepted without that segment. *)
Definition small_siz : siz := mkSiz 0 2 2 0 0 2 2 0 0 [mkComp 8 0 1 1].
Definition small_tccp : tccp := mkT 0 1 6 6 0 1 (fun _ => 15) (fun _ => 15) 0 2 (fun _ => 9) (fun _ => 0) 0 128.
Definition small : enc := mkEnc small_siz (mkTcp 0 0 1 0 [small_tccp] []) None None.
Definition small_bytes : list Z := match write_header small (fun _ => []) with Some l => l | None => [] end.
Definition odd_segment : list Z := seg (65392, [7]).
Definition nothing_else (m : Z) (h : hdr) (d : list Z) : option hdr := None.

Theorem c45_odd_refuted :
  (exists r, read_header nothing_else (0, 0) 0 (small_bytes ++ be 2 SOT ++ [0; 10]) = Some r) /\
  known 65392 = false /\
  read_header nothing_else (0, 0) 0 (small_bytes ++ odd_segment ++ be 2 SOT ++ [0; 10]) = None.
Proof. split; [eexists; vm_compute; reflexivity |]. split; vm_compute; reflexivity. Qed.

(** A marker inside an unknown segment is taken for the next segment. *)
Theorem c45_inside_refuted : exists t rest,
  read_header nothing_else (0, 0) 0 (small_bytes ++ seg (65392, seg (RGN, [0; 0; 7])) ++ be 2 SOT ++ [0; 10]) = Some (small_siz, t, rest) /\
  map roishift (t_comps t) = [7].
Proof. eexists. eexists. split; [vm_compute; reflexivity | vm_compute; reflexivity]. Qed.

(** ** Examples *)
Example small_ok : enc_ok (0, 0) 0 small.
Proof.
  unfold enc_ok. split.
  { unfold siz_ok, axis_ok, tiles_ok. cbn. repeat (split; [lia |]). split; [repeat constructor; cbn; lia |]. exists 1, 1. unfold ceil_of. lia. }
  split; [left; cbn; lia |]. split; [reflexivity |]. repeat (split; [cbn; lia |]). split.
  - intros c Hc. assert (c = 0) by (cbn in Hc; lia). subst c. unfold comp_params_ok. cbv zeta.
    change (at_ (t_comps (e_tcp small)) 0) with small_tccp. split; [| split; [| split; [| split; [cbn; lia |]; split; [cbn; lia |]; split; [reflexivity | intros _; reflexivity]]]].
    + unfold style_ok. cbn. repeat (split; [lia |]). intros. lia.
    + intros _ r Hr. split; reflexivity.
    + unfold quant_ok. cbn. repeat (split; [lia |]). intros. lia.
  - split; [exact I |]. split; [exact I |]. intros A. discriminate.
Qed.

Example ex_header : small_bytes =
  [255; 79; 255; 81; 0; 41; 0; 0; 0; 0; 0; 2; 0; 0; 0; 2; 0; 0; 0; 0; 0; 0; 0; 0; 0; 0; 0; 2; 0; 0; 0; 2; 0; 0; 0; 0; 0; 0; 0; 0; 0; 1; 7; 1; 1;
   255; 82; 0; 12; 0; 0; 0; 1; 0; 0; 4; 4; 0; 1; 255; 92; 0; 4; 64; 72].
Proof. vm_compute. reflexivity. Qed.

(** Three components, the second quantised differently, the third with a region
    of interest and smaller code blocks: the code blocks are lost. *)
Definition three : enc :=
  mkEnc (mkSiz 0 100 80 0 0 100 80 0 0 [mkComp 8 0 1 1; mkComp 8 0 2 2; mkComp 12 1 2 2])
    (mkTcp 0 2 3 0
       [mkT 0 3 6 6 0 0 (fun _ => 15) (fun _ => 15) 2 2 (fun b => 13 - b) (fun b => 100 + b) 0 128;
        mkT 0 3 6 6 0 0 (fun _ => 15) (fun _ => 15) 1 2 (fun b => 20 - b) (fun b => 300 + b) 0 128;
        mkT 0 3 4 5 0 0 (fun _ => 15) (fun _ => 15) 2 2 (fun b => 13 - b) (fun b => 100 + b) 11 0] []) (Some (1, [0; 0; 0; 0; 0])) (Some [72; 105]).
Example ex_three :
  match write_header three (fun _ => []) with
  | Some hd =>
      match read_header nothing_else (100, 80) 1 (hd ++ be 2 SOT ++ [0; 10]) with
      | Some (s, t, rest) =>
          (s, rest, map numres (t_comps t), map cblkw (t_comps t), map qntsty (t_comps t), map roishift (t_comps t),
           map dcshift (t_comps t), map (fun c => (expn c 4, mant c 4)) (t_comps t))
          = (e_siz three, [0; 10], [3; 3; 3], [6; 6; 6], [2; 1; 2], [0; 0; 11], [128; 128; 0], [(9, 104); (19, 300); (9, 104)])
      | None => False
      end
  | None => False
  end.
Proof. vm_compute. reflexivity. Qed.

Example ex_sot : write_sot 3 1000 1 2 = [255; 144; 0; 10; 0; 3; 0; 0; 3; 232; 1; 2].
Proof. vm_compute. reflexivity. Qed.

Print Assumptions c31_main_header.
Print Assumptions c45_unknown_skipped.
