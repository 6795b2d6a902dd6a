(** The main header is read back, segment by segment. *)

From Coq Require Import ZArith List Bool Lia.
From Verif Require Import Ints I32 Mem CioModel CioProps MathModel MathProps HdrModel HdrSpec HdrBytes HdrSegs.
Import ListNotations.
Local Open Scope Z_scope.

(** What an encoder may ask for. *)
Definition comp_params_ok (reduce : Z) (e : enc) (c : Z) : Prop :=
  let t := at_ (t_comps (e_tcp e)) c in
  style_ok reduce t /\ default_prc t /\ quant_ok t /\ 0 <= csty t < 256 /\ 0 <= roishift t <= 255 /\
  Z.testbit (csty t) 0 = Z.testbit (t_csty (e_tcp e)) 0 /\
  (Z.testbit (csty t) 0 = true -> numres t = numres (at_ (t_comps (e_tcp e)) 0)).
Definition has_poc (e : enc) : bool := match e_tlm e with Some _ => rsiz (e_siz e) =? 4 | None => false end.
Definition enc_ok (ihdr : Z * Z) (reduce : Z) (e : enc) : Prop :=
  siz_ok (e_siz e) /\ fits ihdr (e_siz e) /\
  Z.of_nat (List.length (t_comps (e_tcp e))) = numcomps (e_siz e) /\
  0 <= t_csty (e_tcp e) <= 7 /\ 0 <= t_prg (e_tcp e) <= 4 /\ 1 <= t_layers (e_tcp e) <= 65535 /\ 0 <= t_mct (e_tcp e) <= 1 /\
  (forall c, 0 <= c < numcomps (e_siz e) -> comp_params_ok reduce e c) /\
  match e_tlm e with
  | None => True
  | Some (k, l) => 0 <= k <= 10921 /\ Z.of_nat (List.length l) = (if k <=? 255 then 5 else 6) * k
  end /\
  match e_com e with None => True | Some l => Z.of_nat (List.length l) <= 65531 end /\
  (has_poc e = true ->
    1 <= Z.of_nat (List.length (t_pocs (e_tcp e))) <= 31 /\
    Forall (fun p => poc_ok (numcomps (e_siz e)) (t_layers (e_tcp e)) p /\ poc_fits (numcomps (e_siz e)) p) (t_pocs (e_tcp e))).

(** ** Lists of components *)
Lemma put_len : forall l i t, List.length (put l i t) = List.length l.
Proof.
  intros l i t. unfold put. rewrite <- (firstn_skipn (Z.to_nat i) l) at 3. rewrite !app_length. f_equal.
  destruct (skipn (Z.to_nat i) l); reflexivity.
Qed.

Lemma put_at : forall l i t j, 0 <= i < Z.of_nat (List.length l) -> 0 <= j -> at_ (put l i t) j = if j =? i then t else at_ l j.
Proof.
  intros l i t j Hi Hj. unfold at_, put.
  assert (Hl : List.length (firstn (Z.to_nat i) l) = Z.to_nat i) by (rewrite firstn_length; lia).
  destruct (skipn (Z.to_nat i) l) as [| x r] eqn:Es.
  { assert (List.length (skipn (Z.to_nat i) l) = 0%nat) by (rewrite Es; reflexivity). rewrite skipn_length in H. lia. }
  destruct (Z.eqb_spec j i) as [-> | N].
  - rewrite app_nth2 by lia. rewrite Hl, Nat.sub_diag. reflexivity.
  - rewrite <- (firstn_skipn (Z.to_nat i) l) at 2. rewrite Es.
    destruct (Z_lt_le_dec j i).
    + rewrite !app_nth1 by lia. reflexivity.
    + rewrite !app_nth2 by lia. rewrite Hl. replace (Z.to_nat j - Z.to_nat i)%nat with (S (Z.to_nat j - Z.to_nat i - 1)) by lia. reflexivity.
Qed.

Lemma at_map_tl : forall f c l j, 1 <= j < Z.of_nat (List.length l) -> at_ (c :: map f (tl l)) j = f (at_ l j).
Proof.
  intros f c l j Hj. unfold at_. destruct l as [| x l]; [cbn [List.length] in Hj; lia |].
  replace (Z.to_nat j) with (S (Z.to_nat (j - 1))) by lia. cbn [nth tl].
  rewrite nth_indep with (d' := f tccp0) by (rewrite map_length; cbn [List.length] in Hj; lia). apply map_nth.
Qed.

Lemma at_map : forall f l j, 0 <= j < Z.of_nat (List.length l) -> at_ (map f l) j = f (at_ l j).
Proof.
  intros f l j Hj. unfold at_. rewrite nth_indep with (d' := f tccp0) by (rewrite map_length; lia). apply map_nth.
Qed.

Lemma same_sq_spec : forall a b u, 1 <= numres a <= 33 -> 1 <= numres b <= 33 -> same_sq a b = true -> same_quant a u -> same_quant b u.
Proof.
  intros a b u Ha Hb H (Q1 & Q2 & Q3). unfold same_sq in H.
  apply andb_prop in H. destruct H as [H Hm]. apply andb_prop in H. destruct H as [H He]. apply andb_prop in H. destruct H as [H Hn].
  apply andb_prop in H. destruct H as [Hq Hg]. apply Z.eqb_eq in Hq, Hg. rewrite forallb_forall in He.
  destruct (num_bands_eq a Ha) as [Ea Ba]. destruct (num_bands_eq b Hb) as [Eb Bb]. rewrite Ea in *.
  assert (X : forall i, 0 <= i < nbands a -> expn a i = expn b i).
  { intros i Hi. specialize (He (Z.to_nat i)). rewrite Z2Nat.id in He by lia. apply Z.eqb_eq, He, in_seq. lia. }
  assert (Y : qntsty a <> 0 -> forall i, 0 <= i < nbands a -> mant a i = mant b i).
  { intros N i Hi. destruct (Z.eqb_spec (qntsty a) 0); [contradiction |]. cbn [orb] in Hm. rewrite forallb_forall in Hm.
    specialize (Hm (Z.to_nat i)). rewrite Z2Nat.id in Hm by lia. apply Z.eqb_eq, Hm, in_seq. lia. }
  assert (Z : bands b = bands a).
  { unfold bands. rewrite <- Hq. destruct (Z.eqb_spec (qntsty a) 1) as [| N]; [reflexivity |]. cbn [orb] in Hn. apply Z.eqb_eq in Hn.
    unfold nbands in *. rewrite Eb in Hn. rewrite <- Hq in Hn. destruct (Z.eqb_spec (qntsty a) 1); [contradiction |]. lia. }
  unfold same_quant. rewrite Z, <- Hq, <- Hg. split; [exact Q1 |]. split; [exact Q2 |]. intros i Hi. rewrite Q3 by exact Hi.
  unfold step. rewrite <- Hq. destruct (Z.eqb_spec (qntsty a) 1) as [E1 | N1]; cbn [andb].
  - assert (nbands a = 1) by (unfold nbands; rewrite E1; reflexivity). assert (expn a 0 = expn b 0) by (apply X; lia).
    assert (mant a 0 = mant b 0) by (apply Y; lia). destruct (Z.ltb_spec 0 i); [congruence |]. assert (i = 0) by lia. subst i.
    rewrite E1. cbn [Z.eqb Pos.eqb]. congruence.
  - assert (nbands a = bands a) by (unfold nbands, bands; destruct (Z.eqb_spec (qntsty a) 1); [contradiction | reflexivity]).
    rewrite X by lia. destruct (Z.eqb_spec (qntsty a) 0) as [| N0]; [reflexivity |]. rewrite (Y N0) by lia. reflexivity.
Qed.

(** ** Handlers *)
Section Handlers.
Variable other : Z -> hdr -> list Z -> option hdr.
Variable ihdr : Z * Z.
Variable reduce : Z.
Notation H_ := (handler other ihdr reduce).

Lemma h_siz_eq : forall h d, H_ SIZ h d = match read_siz ihdr d with None => None | Some s => Some (mkHdr (Some s) (tcp_of s) (h_cod h) (h_qcd h)) end.
Proof. reflexivity. Qed.
Lemma h_cod_eq : forall h d, H_ COD h d = match read_cod reduce (h_tcp h) d with None => None | Some t => Some (mkHdr (h_siz h) t true (h_qcd h)) end.
Proof. reflexivity. Qed.
Lemma h_qcd_eq : forall h d, H_ QCD h d = match read_qcd (h_tcp h) d with None => None | Some t => Some (mkHdr (h_siz h) t (h_cod h) true) end.
Proof. reflexivity. Qed.
Lemma h_coc_eq : forall h d s, h_siz h = Some s -> H_ COC h d = set_tcp h (read_coc reduce (numcomps s) (h_tcp h) d).
Proof. intros h d s E. unfold handler. rewrite E. reflexivity. Qed.
Lemma h_qcc_eq : forall h d s, h_siz h = Some s -> H_ QCC h d = set_tcp h (read_qcc (numcomps s) (h_tcp h) d).
Proof. intros h d s E. unfold handler. rewrite E. reflexivity. Qed.
Lemma h_rgn_eq : forall h d s, h_siz h = Some s -> H_ RGN h d = set_tcp h (read_rgn (numcomps s) (h_tcp h) d).
Proof. intros h d s E. unfold handler. rewrite E. reflexivity. Qed.
Lemma h_poc_eq : forall h d s, h_siz h = Some s -> H_ POC h d = set_tcp h (read_poc (numcomps s) (h_tcp h) d).
Proof. intros h d s E. unfold handler. rewrite E. reflexivity. Qed.
Lemma h_tlm_eq : forall h d, H_ TLM h d = if read_tlm d then Some h else None.
Proof. reflexivity. Qed.
Lemma h_com_eq : forall h d, H_ COM h d = Some h.
Proof. reflexivity. Qed.

Lemma here_mh : forall h s m, h_siz h = Some s -> In m [COD; COC; RGN; QCD; QCC; POC; TLM; COM] -> here h m = true.
Proof.
  intros h s m E Hm. unfold here, allowed. rewrite E.
  repeat (destruct Hm as [<- | Hm]; [reflexivity |]). destruct Hm.
Qed.

(** Running the segments of each component. *)
Lemma run_each : forall (P : nat -> hdr -> Prop) (f : nat -> list (Z * list Z)) k i h, P i h ->
  (forall c h, (i <= c < i + k)%nat -> P c h -> exists h', run other ihdr reduce h (f c) = Some h' /\ P (S c) h') ->
  exists h', run other ihdr reduce h (flat_map f (seq i k)) = Some h' /\ P (i + k)%nat h'.
Proof.
  intros P f. induction k; intros i h HP Hs.
  - exists h. split; [reflexivity |]. rewrite Nat.add_0_r. exact HP.
  - cbn [seq flat_map]. destruct (Hs i h ltac:(lia) HP) as (h1 & E1 & P1). rewrite run_app, E1.
    destruct (IHk (S i) h1 P1) as (h2 & E2 & P2). { intros c g Hc. apply Hs. lia. }
    exists h2. split; [exact E2 |]. replace (i + S k)%nat with (S i + k)%nat by lia. exact P2.
Qed.

Section Enc.
Variable e : enc.
Hypothesis Hok : enc_ok ihdr reduce e.
Let s := e_siz e.
Let T := e_tcp e.
Let ts := t_comps T.
Let n := numcomps s.
Let t0 := at_ ts 0.

(** The state: the quantisation that component [c] has is that of [q c], and so on. *)
Definition Inv (t : tcp) (q : Z -> tccp) (roi : Z -> Z) (ps : list poc) : Prop :=
  t_csty t = t_csty T /\ t_prg t = t_prg T /\ t_layers t = t_layers T /\ t_mct t = t_mct T /\ t_pocs t = ps /\
  Z.of_nat (List.length (t_comps t)) = n /\
  forall c, 0 <= c < n -> same_style t0 (at_ (t_comps t) c) /\ same_quant (q c) (at_ (t_comps t) c) /\
    roishift (at_ (t_comps t) c) = roi c /\ dcshift (at_ (t_comps t) c) = shift_of (nth (Z.to_nat c) (comps s) (mkComp 0 0 0 0)).
Definition HI (h : hdr) (q : Z -> tccp) (roi : Z -> Z) (ps : list poc) : Prop :=
  h_siz h = Some s /\ h_cod h = true /\ h_qcd h = true /\ Inv (h_tcp h) q roi ps.

Lemma n_pos : 1 <= n <= 16384.
Proof. destruct Hok as ((_ & _ & _ & Hn & _) & _). exact Hn. Qed.
Lemma ok_at : forall c, 0 <= c < n -> comp_params_ok reduce e c.
Proof. intros c Hc. apply Hok. exact Hc. Qed.
Lemma room_ok : (1 <= room_of n <= 2)%nat.
Proof. unfold room_of. destruct (n <=? 256); lia. Qed.
Lemma rd_room : forall c r, 0 <= c < n -> rd (room_of n) (be (room_of n) c ++ r) = Some (c, r).
Proof.
  intros c r Hc. pose proof n_pos. apply rd_be; [pose proof room_ok; lia |]. unfold room_of. destruct (Z.leb_spec n 256).
  - change (256 ^ Z.of_nat 1) with 256. lia.
  - change (256 ^ Z.of_nat 2) with 65536. lia.
Qed.

(** *** SIZ *)
Lemma run_siz : forall h, h_siz h = None -> run other ihdr reduce h [(SIZ, siz_body s)] = Some (mkHdr (Some s) (tcp_of s) (h_cod h) (h_qcd h)).
Proof.
  intros h Hh. cbn [run]. unfold here, allowed. rewrite Hh. change (known SIZ && negb (SIZ =? SOT) && (SIZ =? SIZ)) with true.
  rewrite h_siz_eq, read_siz_body; [reflexivity | |]; apply Hok.
Qed.

(** *** COD *)
Definition cod_body : list Z :=
  be 1 (t_csty T) ++ be 1 (t_prg T) ++ be 2 (t_layers T) ++ be 1 (t_mct T) ++ sp_body t0.

Lemma spsize_bound : forall t, style_ok reduce t -> 5 <= spsize t <= 38.
Proof. intros t (Hn & _). unfold spsize. destruct (Z.testbit (csty t) 0); lia. Qed.

Lemma write_cod_seg : write_cod T = Some (seg (COD, cod_body)) /\ seg_ok (COD, cod_body).
Proof.
  destruct (ok_at 0 ltac:(pose proof n_pos; lia)) as (Hs & _). fold T ts t0 in Hs. pose proof (spsize_bound _ Hs) as Hb.
  destruct Hok as (_ & _ & _ & Hc & Hp & Hl & Hm & _). fold T in Hc, Hp, Hl, Hm.
  assert (L : Z.of_nat (List.length cod_body) = 5 + spsize t0).
  { unfold cod_body. rewrite !app_length, !be_len by lia. pose proof (sp_body_len _ _ Hs). lia. }
  split; [| unfold seg_ok; cbn [snd]; lia].
  unfold write_cod. fold ts t0. cbv zeta. rewrite (sp_size_eq _ _ Hs). rewrite (u32_id (9 + spsize t0)) by lia.
  rewrite (u32_id (9 + spsize t0 - 9)) by lia. replace (9 + spsize t0 - 9) with (spsize t0) by lia. rewrite (write_sp_body _ _ Hs).
  unfold seg. cbn [fst snd]. rewrite L. rewrite u32_id by lia. rewrite (u32_id (t_prg T)) by lia.
  replace (9 + spsize t0 - 2) with (5 + spsize t0 + 2) by lia. reflexivity.
Qed.

Lemma at_fresh : forall c, 0 <= c < n -> at_ (t_comps (tcp_of s)) c = fresh (nth (Z.to_nat c) (comps s) (mkComp 0 0 0 0)).
Proof.
  intros c Hc. unfold at_, tcp_of. cbn [t_comps]. rewrite nth_indep with (d' := fresh (mkComp 0 0 0 0)); [apply map_nth |].
  rewrite map_length. unfold n, numcomps in Hc. lia.
Qed.

Lemma shift_fresh : forall c, comp_ok c -> roishift (fresh c) = 0 /\ dcshift (fresh c) = shift_of c.
Proof.
  intros c (Hp & _). unfold fresh, shift_of. cbn [roishift dcshift]. split; [reflexivity |]. destruct (c_sgnd c =? 0); [| reflexivity].
  rewrite u32_id, Z.mod_small by lia. rewrite Z.shiftl_mul_pow2, Z.mul_1_l by lia. apply i32_id.
  assert (0 < 2 ^ (c_prec c - 1) <= 2 ^ 30) by (split; [apply Z.pow_pos_nonneg; lia | apply Z.pow_le_mono_r; lia]).
  unfold in_i32. lia.
Qed.

Lemma csty_mask : forall v, 0 <= v <= 7 -> Z.land v (2 ^ 32 - 8) = 0.
Proof.
  intros v Hv. assert (C : v = 0 \/ v = 1 \/ v = 2 \/ v = 3 \/ v = 4 \/ v = 5 \/ v = 6 \/ v = 7) by lia.
  destruct C as [-> | [-> | [-> | [-> | [-> | [-> | [-> | ->]]]]]]]; reflexivity.
Qed.

Lemma bit_land1 : forall v, Z.testbit (Z.land v 1) 0 = Z.testbit v 0.
Proof. intros v. rewrite Z.land_spec. apply andb_true_r. Qed.

(** After COD: everything but the quantisation. *)
Definition InvA (t : tcp) : Prop :=
  t_csty t = t_csty T /\ t_prg t = t_prg T /\ t_layers t = t_layers T /\ t_mct t = t_mct T /\ t_pocs t = [] /\
  Z.of_nat (List.length (t_comps t)) = n /\
  forall c, 0 <= c < n -> same_style t0 (at_ (t_comps t) c) /\
    roishift (at_ (t_comps t) c) = 0 /\ dcshift (at_ (t_comps t) c) = shift_of (nth (Z.to_nat c) (comps s) (mkComp 0 0 0 0)).

Lemma comps_at : forall c, 0 <= c < n -> comp_ok (nth (Z.to_nat c) (comps s) (mkComp 0 0 0 0)).
Proof.
  intros c Hc. destruct Hok as ((_ & _ & _ & _ & F & _) & _). rewrite Forall_forall in F. apply F. apply nth_In.
  unfold n, numcomps in Hc. fold s. lia.
Qed.

Lemma read_cod_body : exists t, read_cod reduce (tcp_of s) cod_body = Some t /\ InvA t.
Proof.
  pose proof n_pos as Hn. destruct (ok_at 0 ltac:(lia)) as (Hs & Hd & _ & _ & _ & Hb & _). fold T ts t0 in Hs, Hd, Hb.
  destruct Hok as (_ & _ & _ & Hc & Hp & Hl & Hm & _). fold T in Hc, Hp, Hl, Hm.
  assert (L : 5 <= Z.of_nat (List.length cod_body)).
  { unfold cod_body. rewrite !app_length, !be_len by lia. lia. }
  unfold read_cod. destruct (Z.ltb_spec (Z.of_nat (List.length cod_body)) 5); [lia |]. unfold cod_body.
  rewrite rd1 by lia. rewrite csty_mask by lia. cbn [Z.eqb negb]. rewrite rd1 by lia. cbv zeta. destruct (Z.ltb_spec 4 (t_prg T)); [lia |].
  rewrite rd2 by lia. destruct (Z.ltb_spec (t_layers T) 1); [lia |]. destruct (Z.ltb_spec 65535 (t_layers T)); [lia |]. cbn [orb].
  rewrite rd1 by lia. destruct (Z.ltb_spec 1 (t_mct T)); [lia |].
  set (cs := map (set_csty (Z.land (t_csty T) 1)) (t_comps (tcp_of s))).
  assert (Lc : Z.of_nat (List.length cs) = n).
  { unfold cs, tcp_of. cbn [t_comps]. rewrite !map_length. reflexivity. }
  assert (Ac : forall c, 0 <= c < n -> at_ cs c = set_csty (Z.land (t_csty T) 1) (fresh (nth (Z.to_nat c) (comps s) (mkComp 0 0 0 0)))).
  { intros c Hcc. unfold cs. rewrite at_map; [rewrite at_fresh by exact Hcc; reflexivity |]. unfold tcp_of. cbn [t_comps]. rewrite map_length. exact Hcc. }
  destruct (read_sp_body reduce t0 (at_ cs 0) Hs Hd) as (u' & E & S & C & _ & R1 & R2).
  { rewrite Ac by lia. cbn [csty set_csty]. rewrite bit_land1. symmetry. exact Hb. }
  rewrite E. eexists. split; [reflexivity |]. unfold InvA. cbn [t_csty t_prg t_layers t_mct t_comps t_pocs].
  repeat (split; [reflexivity |]).
  assert (Ln : Z.of_nat (List.length (u' :: map (copy_sp u') (tl cs))) = n).
  { cbn [List.length]. rewrite map_length. destruct cs; cbn [List.length tl] in *; lia. }
  split; [exact Ln |]. intros c Hcc. pose proof (shift_fresh _ (comps_at c Hcc)) as [F1 F2].
  destruct (Z.eq_dec c 0) as [-> | N].
  - change (at_ (u' :: map (copy_sp u') (tl cs)) 0) with u'. rewrite R1, R2, (Ac 0 Hcc). cbn [roishift dcshift set_csty]. tauto.
  - rewrite at_map_tl by lia. rewrite (Ac c Hcc). unfold copy_sp. cbn [roishift dcshift set_csty fresh]. split; [| split; [reflexivity | exact F2]].
    destruct S as (S1 & S2 & S3 & S4 & S5 & S6 & S7). unfold same_style. cbn [csty numres cblkw cblkh cblksty qmfbid prcw prch set_csty].
    rewrite bit_land1. split; [exact Hb |]. repeat (split; [assumption |]). intros r Hr. destruct (S7 r Hr) as [P1 P2].
    unfold copy_n. destruct (Z.leb_spec 0 r); [| lia]. destruct (Z.ltb_spec r (numres u')); [| lia]. cbn [andb]. split; assumption.
Qed.

(** *** QCD *)
Lemma write_qcd_seg : write_qcd T = seg (QCD, write_sq t0) /\ seg_ok (QCD, write_sq t0).
Proof.
  destruct (ok_at 0 ltac:(pose proof n_pos; lia)) as ((Hr & _) & _). fold T ts t0 in Hr. pose proof (num_bands_eq t0 Hr) as [_ Hb].
  assert (B : 2 <= sqsize t0 <= 195) by (unfold sqsize; destruct (qntsty t0 =? 0); lia).
  unfold write_qcd, seg, seg_ok. cbv zeta. fold ts t0. cbn [fst snd]. rewrite sq_len, sq_size_eq by exact Hr. split; [| lia].
  rewrite (u32_id (4 + sqsize t0)), u32_id by lia. replace (4 + sqsize t0 - 2) with (sqsize t0 + 2) by lia. reflexivity.
Qed.

Lemma keeps_same_style : forall a b u, same_style a u -> keeps_style u b -> same_style a b.
Proof.
  intros a b u (S1 & S2 & S3 & S4 & S5 & S6 & S7) (K0 & K1 & K2 & K3 & K4 & K5 & K6 & K7). unfold same_style.
  rewrite K0, K1, K2, K3, K4, K5. repeat (split; [assumption |]). intros r Hr. rewrite K6, K7. apply S7. exact Hr.
Qed.
Lemma keeps_same_quant : forall a b u, same_quant a u -> keeps_quant u b -> same_quant a b.
Proof.
  intros a b u (S1 & S2 & S3) (K1 & K2 & K3 & K4). unfold same_quant. rewrite K1, K2. repeat (split; [assumption |]).
  intros i Hi. rewrite K3, K4. apply S3. exact Hi.
Qed.

Lemma bands_le : forall t, numres t <= 33 -> bands t <= 97.
Proof. intros t H. unfold bands. destruct (qntsty t =? 1); lia. Qed.

Lemma read_qcd_body : forall t, InvA t -> exists t', read_qcd t (write_sq t0) = Some t' /\ Inv t' (fun _ => t0) (fun _ => 0) [].
Proof.
  intros t (A1 & A2 & A3 & A4 & A5 & A6 & A7). pose proof n_pos as Hn. destruct (ok_at 0 ltac:(lia)) as ((Hr & _) & _ & Hq & _).
  fold T ts t0 in Hr, Hq. unfold read_qcd.
  destruct (read_sq_write t0 (at_ (t_comps t) 0) Hr Hq) as (u' & E & Q & K & R1 & R2). rewrite E. eexists. split; [reflexivity |].
  unfold Inv, set_comps. cbn [t_csty t_prg t_layers t_mct t_comps t_pocs]. repeat (split; [assumption |]).
  assert (Ln : Z.of_nat (List.length (u' :: map (copy_sq u') (tl (t_comps t)))) = n).
  { cbn [List.length]. rewrite map_length. destruct (t_comps t); cbn [List.length tl] in *; lia. }
  split; [exact Ln |]. intros c Hc. destruct (A7 c Hc) as (B1 & B2 & B3).
  destruct (Z.eq_dec c 0) as [-> | N].
  - change (at_ (u' :: map (copy_sq u') (tl (t_comps t))) 0) with u'. rewrite R1, R2. split; [| tauto].
    eapply keeps_same_style; [exact B1 | exact K].
  - rewrite at_map_tl by lia. unfold copy_sq. cbn [roishift dcshift]. split; [| split; [| tauto]].
    + eapply keeps_same_style; [exact B1 |]. repeat split.
    + destruct Q as (Q1 & Q2 & Q3). unfold same_quant. cbn [qntsty numgbits expn mant]. split; [exact Q1 |]. split; [exact Q2 |].
      intros i Hi. rewrite <- Q3 by exact Hi. unfold copy_n. pose proof (bands_le t0 ltac:(lia)).
      destruct (Z.leb_spec 0 i); [| lia]. destruct (Z.ltb_spec i 97); [| lia]. reflexivity.
Qed.

(** Replacing one component. *)
Lemma Inv_put : forall t q roi ps k u q' roi', Inv t q roi ps -> 0 <= k < n ->
  (forall c, 0 <= c < n -> c <> k -> (same_quant (q c) (at_ (t_comps t) c) -> same_quant (q' c) (at_ (t_comps t) c)) /\ roi' c = roi c) ->
  same_style t0 u -> same_quant (q' k) u -> roishift u = roi' k -> dcshift u = dcshift (at_ (t_comps t) k) ->
  Inv (set_comps t (put (t_comps t) k u)) q' roi' ps.
Proof.
  intros t q roi ps k u q' roi' (A1 & A2 & A3 & A4 & A5 & A6 & A7) Hk Ho S Q R D. unfold Inv, set_comps.
  cbn [t_csty t_prg t_layers t_mct t_comps t_pocs]. repeat (split; [assumption |]). rewrite put_len. split; [exact A6 |].
  intros c Hc. rewrite put_at by lia. destruct (A7 c Hc) as (B1 & B2 & B3 & B4). destruct (Z.eqb_spec c k) as [-> | N].
  - rewrite D. tauto.
  - destruct (Ho c Hc N) as [O1 O2]. rewrite O2. tauto.
Qed.

(** *** COC *)
Definition coc_body (c : Z) : list Z := be (room_of n) c ++ be 1 (csty (at_ ts c)) ++ sp_body t0.

Lemma write_coc_seg : forall c old, 1 <= c < n -> write_coc n ts c old = seg (COC, coc_body c) /\ seg_ok (COC, coc_body c).
Proof.
  intros c old Hc. pose proof n_pos as Hn. destruct (ok_at 0 ltac:(lia)) as (Hs & _ & _ & _ & _ & Hb & _). fold T ts t0 in Hs, Hb.
  destruct (ok_at c ltac:(lia)) as (Hsc & _ & _ & _ & _ & Hbc & Hnc). fold T ts t0 in Hsc, Hbc, Hnc. fold T ts in Hsc.
  assert (E : spsize (at_ ts c) = spsize t0).
  { unfold spsize. rewrite Hb, Hbc in *. destruct (Z.testbit (t_csty T) 0); [| reflexivity]. rewrite (Hnc eq_refl). reflexivity. }
  pose proof (spsize_bound _ Hs) as Hbd. pose proof room_ok as Hro.
  assert (L : Z.of_nat (List.length (coc_body c)) = Z.of_nat (room_of n) + 1 + spsize t0).
  { unfold coc_body. rewrite !app_length, !be_len by lia. pose proof (sp_body_len _ _ Hs). lia. }
  unfold seg_ok. cbn [snd]. split; [| lia]. unfold write_coc. cbv zeta. fold ts t0. rewrite (sp_size_eq _ _ Hsc), E.
  rewrite (u32_id (5 + Z.of_nat (room_of n))), (u32_id (5 + Z.of_nat (room_of n) + spsize t0)) by lia.
  rewrite (u32_id (5 + Z.of_nat (room_of n) + spsize t0 - (5 + Z.of_nat (room_of n)))) by lia.
  replace (5 + Z.of_nat (room_of n) + spsize t0 - (5 + Z.of_nat (room_of n))) with (spsize t0) by lia.
  rewrite (write_sp_body _ _ Hs). cbn [fst]. rewrite u32_id by lia.
  replace (5 + Z.of_nat (room_of n) + spsize t0 - 2) with (Z.of_nat (List.length (coc_body c)) + 2) by lia.
  replace (be 2 COC ++ be 2 (Z.of_nat (List.length (coc_body c)) + 2) ++ be (room_of n) c ++ be 1 (csty (at_ ts c)) ++ sp_body t0 ++ old)
    with (seg (COC, coc_body c) ++ old) by (unfold seg, coc_body; cbn [fst snd]; rewrite <- !app_assoc; reflexivity).
  assert (L2 : List.length (seg (COC, coc_body c)) = Z.to_nat (5 + Z.of_nat (room_of n) + spsize t0)).
  { unfold seg. cbn [fst snd]. rewrite !app_length, !be_len by lia. lia. }
  rewrite <- L2, firstn_app, Nat.sub_diag, firstn_all, firstn_O, app_nil_r. reflexivity.
Qed.

Lemma run_coc : forall h q roi ps c, HI h q roi ps -> 1 <= c < n ->
  exists h', run other ihdr reduce h [(COC, coc_body c)] = Some h' /\ HI h' q roi ps.
Proof.
  intros h q roi ps c (I1 & I2 & I3 & I4) Hc. pose proof n_pos as Hn. destruct (ok_at 0 ltac:(lia)) as (Hs & Hd & _ & _ & _ & Hb & _).
  fold T ts t0 in Hs, Hd, Hb. destruct (ok_at c ltac:(lia)) as (_ & _ & _ & Hcs & _ & Hbc & _). fold T ts in Hcs, Hbc.
  cbn [run]. rewrite (here_mh h s) by (try exact I1; cbn; tauto). rewrite (h_coc_eq h _ s I1). fold n. unfold read_coc.
  pose proof room_ok as Hro.
  assert (L : Z.of_nat (room_of n) + 1 <= Z.of_nat (List.length (coc_body c))).
  { unfold coc_body. rewrite !app_length, !be_len by lia. lia. }
  destruct (Z.ltb_spec (Z.of_nat (List.length (coc_body c))) (Z.of_nat (room_of n) + 1)); [lia |]. unfold coc_body.
  rewrite rd_room by lia. destruct (Z.leb_spec n c); [lia |]. rewrite rd1 by lia.
  assert (J := I4). destruct J as (A1 & A2 & A3 & A4 & A5 & A6 & A7). destruct (A7 c ltac:(lia)) as (B1 & B2 & B3 & B4).
  destruct (read_sp_body reduce t0 (set_csty (csty (at_ ts c)) (at_ (t_comps (h_tcp h)) c)) Hs Hd) as (u' & E & S & C & K & R1 & R2).
  { cbn [csty set_csty]. congruence. }
  rewrite E. cbn [set_tcp]. eexists. split; [reflexivity |]. unfold HI. cbn [h_siz h_cod h_qcd h_tcp]. repeat (split; [assumption |]).
  apply (Inv_put (h_tcp h) q roi ps c u' q roi I4); [lia | | exact S | | |].
  - intros c' Hc' N. split; [tauto | reflexivity].
  - eapply keeps_same_quant; [exact B2 | exact K].
  - rewrite R1. exact B3.
  - rewrite R2. reflexivity.
Qed.

(** *** QCC *)
Definition qcc_body (c : Z) : list Z := be (room_of n) c ++ write_sq (at_ ts c).

Lemma write_qcc_seg : forall c, 1 <= c < n -> write_qcc n ts c = seg (QCC, qcc_body c) /\ seg_ok (QCC, qcc_body c).
Proof.
  intros c Hc. destruct (ok_at c ltac:(lia)) as ((Hr & _) & _). fold T ts in Hr. pose proof (num_bands_eq _ Hr) as [_ Hb].
  pose proof room_ok as Hro. assert (B : 2 <= sqsize (at_ ts c) <= 195) by (unfold sqsize; destruct (qntsty (at_ ts c) =? 0); lia).
  assert (L : Z.of_nat (List.length (qcc_body c)) = Z.of_nat (room_of n) + sqsize (at_ ts c)).
  { unfold qcc_body. rewrite app_length, be_len by lia. pose proof (sq_len _ Hr). lia. }
  unfold seg_ok, seg. cbn [fst snd]. rewrite L. split; [| lia]. unfold write_qcc. cbv zeta. rewrite sq_size_eq by exact Hr.
  rewrite (u32_id (5 + sqsize (at_ ts c))) by lia.
  replace (5 + sqsize (at_ ts c) + (if n <=? 256 then 0 else 1)) with (4 + Z.of_nat (room_of n) + sqsize (at_ ts c))
    by (unfold room_of; destruct (n <=? 256); lia).
  rewrite (u32_id (4 + _ + _)), u32_id by lia.
  replace (4 + Z.of_nat (room_of n) + sqsize (at_ ts c) - 2) with (Z.of_nat (room_of n) + sqsize (at_ ts c) + 2) by lia. reflexivity.
Qed.

Lemma run_qcc : forall h q roi ps c, HI h q roi ps -> 1 <= c < n ->
  exists h', run other ihdr reduce h [(QCC, qcc_body c)] = Some h' /\ HI h' (fun i => if i =? c then at_ ts c else q i) roi ps.
Proof.
  intros h q roi ps c (I1 & I2 & I3 & I4) Hc. destruct (ok_at c ltac:(lia)) as ((Hr & _) & _ & Hq & _). fold T ts in Hr, Hq.
  cbn [run]. rewrite (here_mh h s) by (try exact I1; cbn; tauto). rewrite (h_qcc_eq h _ s I1). fold n. unfold read_qcc, qcc_body.
  rewrite rd_room by lia. destruct (Z.leb_spec n c); [lia |].
  assert (J := I4). destruct J as (A1 & A2 & A3 & A4 & A5 & A6 & A7). destruct (A7 c ltac:(lia)) as (B1 & B2 & B3 & B4).
  destruct (read_sq_write (at_ ts c) (at_ (t_comps (h_tcp h)) c) Hr Hq) as (u' & E & Q & K & R1 & R2).
  rewrite E. cbn [set_tcp]. eexists. split; [reflexivity |]. unfold HI. cbn [h_siz h_cod h_qcd h_tcp]. repeat (split; [assumption |]).
  apply (Inv_put (h_tcp h) q roi ps c u' (fun i => if i =? c then at_ ts c else q i) roi I4); [lia | | | | |].
  - intros c' Hc' N. destruct (Z.eqb_spec c' c); [contradiction |]. split; [tauto | reflexivity].
  - eapply keeps_same_style; [exact B1 | exact K].
  - rewrite Z.eqb_refl. exact Q.
  - rewrite R1. exact B3.
  - rewrite R2. reflexivity.
Qed.

(** *** RGN *)
Definition rgn_body (c : Z) : list Z := be (room_of n) c ++ be 1 0 ++ be 1 (roishift (at_ ts c)).

Lemma write_rgn_seg : forall c, 0 <= c < n -> write_rgn n c (at_ ts c) = seg (RGN, rgn_body c) /\ seg_ok (RGN, rgn_body c).
Proof.
  intros c Hc. destruct (ok_at c Hc) as (_ & _ & _ & _ & Hroi & _). fold T ts in Hroi. pose proof room_ok as Hro.
  assert (L : Z.of_nat (List.length (rgn_body c)) = Z.of_nat (room_of n) + 2).
  { unfold rgn_body. rewrite !app_length, !be_len by lia. lia. }
  unfold seg_ok, seg. cbn [fst snd]. rewrite L. split; [| lia]. unfold write_rgn. rewrite (u32_id (6 + _)), u32_id, (u32_id (roishift _)) by lia.
  replace (6 + Z.of_nat (room_of n) - 2) with (Z.of_nat (room_of n) + 2 + 2) by lia. reflexivity.
Qed.

Lemma run_rgn : forall h q roi ps c, HI h q roi ps -> 0 <= c < n ->
  exists h', run other ihdr reduce h [(RGN, rgn_body c)] = Some h' /\ HI h' q (fun i => if i =? c then roishift (at_ ts c) else roi i) ps.
Proof.
  intros h q roi ps c (I1 & I2 & I3 & I4) Hc. destruct (ok_at c Hc) as (_ & _ & _ & _ & Hroi & _). fold T ts in Hroi.
  pose proof room_ok as Hro.
  assert (L : Z.of_nat (List.length (rgn_body c)) = 2 + Z.of_nat (room_of n)).
  { unfold rgn_body. rewrite !app_length, !be_len by lia. lia. }
  cbn [run]. rewrite (here_mh h s) by (try exact I1; cbn; tauto). rewrite (h_rgn_eq h _ s I1). fold n. unfold read_rgn. rewrite L, Z.eqb_refl.
  cbn [negb]. unfold rgn_body. rewrite rd_room by lia. rewrite rd1 by lia. destruct (Z.leb_spec n c); [lia |].
  rewrite <- (app_nil_r (be 1 (roishift (at_ ts c)))), rd1 by lia. cbn [set_tcp].
  assert (J := I4). destruct J as (A1 & A2 & A3 & A4 & A5 & A6 & A7). destruct (A7 c Hc) as (B1 & B2 & B3 & B4).
  eexists. split; [reflexivity |]. unfold HI. cbn [h_siz h_cod h_qcd h_tcp]. repeat (split; [assumption |]).
  apply (Inv_put (h_tcp h) q roi ps c _ q (fun i => if i =? c then roishift (at_ ts c) else roi i) I4); [lia | | | | |].
  - intros c' Hc' N. destruct (Z.eqb_spec c' c); [contradiction |]. split; [tauto | reflexivity].
  - eapply keeps_same_style; [exact B1 | repeat split].
  - eapply keeps_same_quant; [exact B2 | repeat split].
  - rewrite Z.eqb_refl. reflexivity.
  - reflexivity.
Qed.

(** *** TLM, COM *)
Lemma write_tlm_seg : forall k l, e_tlm e = Some (k, l) ->
  exists b, write_tlm k l = Some (seg (TLM, b)) /\ seg_ok (TLM, b) /\ read_tlm b = true.
Proof.
  intros k l El. destruct Hok as (_ & _ & _ & _ & _ & _ & _ & _ & Ht & _). rewrite El in Ht. destruct Ht as [Hk Hl].
  unfold write_tlm. destruct (Z.ltb_spec 10921 k); [lia |]. cbv zeta.
  exists (be 1 0 ++ be 1 (if (if k <=? 255 then 5 else 6) =? 5 then 80 else 96) ++ l).
  set (per := if k <=? 255 then 5 else 6) in *. assert (Hp : per = 5 \/ per = 6) by (unfold per; destruct (k <=? 255); tauto).
  assert (Hp2 : per * k <= 65526) by (unfold per in *; destruct (Z.leb_spec k 255); nia). assert (0 <= per * k) by (clearbody per; nia).
  assert (L : Z.of_nat (List.length (be 1 0 ++ be 1 (if per =? 5 then 80 else 96) ++ l)) = 2 + per * k).
  { rewrite !app_length, !be_len by lia. lia. }
  unfold seg, seg_ok. cbn [fst snd]. rewrite L. split; [| split; [lia |]].
  - rewrite (u32_id (per * k)), (u32_id (6 + per * k)), u32_id by lia. replace (6 + per * k - 2) with (2 + per * k + 2) by lia. reflexivity.
  - unfold read_tlm. rewrite L. destruct (Z.ltb_spec (2 + per * k) 2); [lia |]. replace (2 + per * k - 2) with (k * per) by lia. cbv zeta.
    destruct Hp as [-> | ->]; cbn [Z.eqb Pos.eqb].
    + change (nth 1 (be 1 0 ++ be 1 80 ++ l) 0) with 80. change ((Z.land (Z.shiftr 80 6) 1 + 1) * 2 + Z.land (Z.shiftr 80 4) 3) with 5.
      rewrite Z.mod_mul by lia. reflexivity.
    + change (nth 1 (be 1 0 ++ be 1 96 ++ l) 0) with 96. change ((Z.land (Z.shiftr 96 6) 1 + 1) * 2 + Z.land (Z.shiftr 96 4) 3) with 6.
      rewrite Z.mod_mul by lia. reflexivity.
Qed.

Lemma run_tlm : forall h q roi ps b, HI h q roi ps -> read_tlm b = true -> run other ihdr reduce h [(TLM, b)] = Some h.
Proof. intros h q roi ps b (I1 & _) Hb. cbn [run]. rewrite (here_mh h s) by (try exact I1; cbn; tauto). rewrite h_tlm_eq, Hb. reflexivity. Qed.

Lemma write_com_seg : forall l, e_com e = Some l -> write_com l = seg (COM, be 2 1 ++ l) /\ seg_ok (COM, be 2 1 ++ l).
Proof.
  intros l El. destruct Hok as (_ & _ & _ & _ & _ & _ & _ & _ & _ & Hc & _). rewrite El in Hc.
  unfold seg, seg_ok, write_com. cbn [fst snd]. rewrite app_length, be_len by lia. split; [| lia].
  rewrite (u32_id (Z.of_nat (List.length l))), (u32_id (_ + 6)), u32_id by lia.
  replace (Z.of_nat (2 + List.length l) + 2) with (Z.of_nat (List.length l) + 6 - 2) by lia. reflexivity.
Qed.

Lemma run_com : forall h q roi ps b, HI h q roi ps -> run other ihdr reduce h [(COM, b)] = Some h.
Proof. intros h q roi ps b (I1 & _). cbn [run]. rewrite (here_mh h s) by (try exact I1; cbn; tauto). rewrite h_com_eq. reflexivity. Qed.

End Enc.
End Handlers.

(** ** POC, for any number of components and layers *)
Definition poc_body (n : Z) (ps : list poc) : list Z := flat_map (write_poc1 n) ps.

Lemma room_bound : forall n, (1 <= room_of n <= 2)%nat.
Proof. intros n. unfold room_of. destruct (n <=? 256); lia. Qed.

Lemma poc1_len : forall n p, List.length (write_poc1 n p) = (5 + 2 * room_of n)%nat.
Proof. intros n p. pose proof (room_bound n). unfold write_poc1. rewrite !app_length, !be_len by lia. lia. Qed.

Lemma poc_len : forall n ps, List.length (poc_body n ps) = ((5 + 2 * room_of n) * List.length ps)%nat.
Proof. intros n. unfold poc_body. induction ps as [| p ps IH]; [cbn; lia |]. cbn [flat_map]. rewrite app_length, poc1_len, IH. cbn [List.length]. lia. Qed.

Lemma rd_comp : forall n c r, 0 <= c < 65536 -> (n <= 256 -> c <= 255) -> rd (room_of n) (be (room_of n) c ++ r) = Some (c, r).
Proof.
  intros n c r Hc Hs. pose proof (room_bound n). apply rd_be; [lia |]. unfold room_of. destruct (Z.leb_spec n 256).
  - change (256 ^ Z.of_nat 1) with 256. specialize (Hs ltac:(lia)). lia.
  - exact Hc.
Qed.

Lemma read_pocs_write : forall n layers ps, 1 <= n <= 16384 -> layers <= 65535 ->
  Forall (fun p => poc_ok n layers p /\ poc_fits n p) ps -> read_pocs (List.length ps) n layers (poc_body n ps) = Some ps.
Proof.
  intros n layers ps Hn Hl. induction ps as [| p ps IH]; intros F; [reflexivity |]. inversion F as [| ? ? [Hp Hf] Fl]; subst.
  destruct Hp as (P1 & P2 & P3 & P4 & P5 & P6). unfold poc_fits in Hf. unfold poc_body. cbn [List.length read_pocs flat_map].
  unfold write_poc1 at 1. rewrite <- !app_assoc. rewrite rd1 by lia. rewrite rd_comp by lia. rewrite rd2 by lia. rewrite rd1 by lia.
  rewrite rd_comp by lia. rewrite (u32_id (p_prg p)) by lia. rewrite rd1 by lia. fold (poc_body n ps). rewrite IH by exact Fl.
  rewrite !Z.min_l by lia. destruct p; reflexivity.
Qed.

Lemma write_poc_seg : forall n ps, Z.of_nat (List.length ps) <= 31 ->
  write_poc n ps = seg (POC, poc_body n ps) /\ seg_ok (POC, poc_body n ps).
Proof.
  intros n ps Hl. pose proof (room_bound n) as Hr.
  assert (L : Z.of_nat (List.length (poc_body n ps)) = (5 + 2 * Z.of_nat (room_of n)) * Z.of_nat (List.length ps)) by (rewrite poc_len; lia).
  assert (B : 0 <= (5 + 2 * Z.of_nat (room_of n)) * Z.of_nat (List.length ps) <= 9 * 31) by nia.
  unfold seg, seg_ok. cbn [fst snd]. rewrite L. split; [| lia]. unfold write_poc. fold (poc_body n ps).
  rewrite (u32_id (2 * _)), (u32_id (5 + _)), (u32_id (_ * _)), (u32_id (4 + _)), u32_id by lia.
  replace (4 + (5 + 2 * Z.of_nat (room_of n)) * Z.of_nat (List.length ps) - 2) with
    ((5 + 2 * Z.of_nat (room_of n)) * Z.of_nat (List.length ps) + 2) by lia. reflexivity.
Qed.

Lemma read_poc_write : forall n t ps, 1 <= n <= 16384 -> t_layers t <= 65535 -> (0 < List.length ps)%nat ->
  (List.length ps + List.length (t_pocs t) < 32)%nat ->
  Forall (fun p => poc_ok n (t_layers t) p /\ poc_fits n p) ps ->
  read_poc n t (poc_body n ps) = Some (mkTcp (t_csty t) (t_prg t) (t_layers t) (t_mct t) (t_comps t) (t_pocs t ++ ps)).
Proof.
  intros n t ps Hn Hl Hp Hk F. pose proof (room_bound n) as Hr. unfold read_poc. cbv zeta. rewrite poc_len.
  replace (Z.of_nat ((5 + 2 * room_of n) * List.length ps)) with (Z.of_nat (List.length ps) * (5 + 2 * Z.of_nat (room_of n))) by lia.
  rewrite Z.div_mul, Z.mod_mul by lia. destruct (Z.eqb_spec (Z.of_nat (List.length ps)) 0); [lia |]. cbn [Z.eqb negb orb].
  destruct (Z.leb_spec 32 (Z.of_nat (List.length ps) + Z.of_nat (List.length (t_pocs t)))); [lia |].
  rewrite Nat2Z.id, read_pocs_write by assumption. reflexivity.
Qed.
