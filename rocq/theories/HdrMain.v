(** Reading the whole main header. *)

From Coq Require Import ZArith List Bool Lia.
From Verif Require Import Ints I32 Mem CioModel CioProps MathModel MathProps HdrModel HdrSpec HdrBytes HdrSegs HdrRun.
Import ListNotations.
Local Open Scope Z_scope.

Lemma flat_map_map : forall {A B C} (f : B -> list C) (g : A -> B) l, flat_map f (map g l) = flat_map (fun x => f (g x)) l.
Proof. intros. induction l as [| x l IH]; [reflexivity |]. cbn [map flat_map]. rewrite IH. reflexivity. Qed.
Lemma flat_map_flat_map : forall {A B C} (f : B -> list C) (g : A -> list B) l, flat_map f (flat_map g l) = flat_map (fun x => flat_map f (g x)) l.
Proof. intros. induction l as [| x l IH]; [reflexivity |]. cbn [flat_map]. rewrite flat_map_app, IH. reflexivity. Qed.
Lemma flat_map_ext_in : forall {A B} (f g : A -> list B) l, (forall x, In x l -> f x = g x) -> flat_map f l = flat_map g l.
Proof.
  intros A B f g l. induction l as [| x l IH]; intros H; [reflexivity |]. cbn [flat_map]. rewrite (H x), IH; [reflexivity | | left; reflexivity].
  intros z Hz. apply H. right. exact Hz.
Qed.
Lemma Forall_flat_map_in : forall {A B} (P : B -> Prop) (f : A -> list B) l, (forall x, In x l -> Forall P (f x)) -> Forall P (flat_map f l).
Proof.
  intros A B P f l. induction l as [| x l IH]; intros H; [constructor |]. cbn [flat_map]. apply Forall_app. split; [apply H; left; reflexivity |].
  apply IH. intros z Hz. apply H. right. exact Hz.
Qed.

Section Main.
Variable other : Z -> hdr -> list Z -> option hdr.
Variable ihdr : Z * Z.
Variable reduce : Z.
Variable e : enc.
Hypothesis Hok : enc_ok ihdr reduce e.
Let s := e_siz e.
Let T := e_tcp e.
Let ts := t_comps T.
Let n := numcomps s.
Let t0 := at_ ts 0.

Definition coc_segs (i : nat) : list (Z * list Z) := if same_coc t0 (at_ ts (Z.of_nat i)) then [] else [(COC, coc_body e (Z.of_nat i))].
Definition qcc_segs (i : nat) : list (Z * list Z) := if same_sq t0 (at_ ts (Z.of_nat i)) then [] else [(QCC, qcc_body e (Z.of_nat i))].
Definition rgn_segs (i : nat) : list (Z * list Z) := if roishift (at_ ts (Z.of_nat i)) =? 0 then [] else [(RGN, rgn_body e (Z.of_nat i))].
Definition poc_segs : list (Z * list Z) := if has_poc e then [(POC, poc_body n (t_pocs T))] else [].
Definition com_segs : list (Z * list Z) := match e_com e with None => [] | Some l => [(COM, be 2 1 ++ l)] end.

Definition segs (tlm : list (Z * list Z)) : list (Z * list Z) :=
  [(SIZ, siz_body s)] ++ [(COD, cod_body e)] ++ [(QCD, write_sq t0)] ++
  flat_map coc_segs (seq 1 (Z.to_nat (n - 1))) ++ flat_map qcc_segs (seq 1 (Z.to_nat (n - 1))) ++ tlm ++ poc_segs ++
  flat_map rgn_segs (seq 0 (Z.to_nat n)) ++ com_segs.

Definition tlm_ok (tlm : list (Z * list Z)) : Prop :=
  tlm = [] \/ exists b, tlm = [(TLM, b)] /\ seg_ok (TLM, b) /\ read_tlm b = true.

Lemma in_bound : forall i, In i (seq 1 (Z.to_nat (n - 1))) -> 1 <= Z.of_nat i < n.
Proof. intros i Hi. apply in_seq in Hi. lia. Qed.
Lemma in_bound0 : forall i, In i (seq 0 (Z.to_nat n)) -> 0 <= Z.of_nat i < n.
Proof. intros i Hi. apply in_seq in Hi. lia. Qed.

Lemma poc_segs_ok : Forall seg_ok poc_segs.
Proof.
  unfold poc_segs. destruct (has_poc e) eqn:Ep; [| constructor]. constructor; [| constructor].
  apply write_poc_seg. apply Hok. exact Ep.
Qed.

Lemma header_segs : forall old, exists tlm, tlm_ok tlm /\ write_header e old = Some (be 2 SOC ++ flat_map seg (segs tlm)) /\ Forall seg_ok (segs tlm).
Proof.
  intros old. pose proof (n_pos ihdr reduce e Hok) as Hn. fold s n in Hn.
  destruct (write_cod_seg other ihdr reduce e Hok) as [Wc Oc]. fold T in Wc. destruct (write_qcd_seg other ihdr reduce e Hok) as [Wq Oq]. fold T ts t0 in Wq, Oq.
  destruct (write_siz_seg s (proj1 Hok)) as [Ws Os].
  assert (Wt : exists tlm, tlm_ok tlm /\ match e_tlm e with None => Some [] | Some (k, l) => write_tlm k l end = Some (flat_map seg tlm)).
  { destruct (e_tlm e) as [[k l] |] eqn:Et.
    - destruct (write_tlm_seg other ihdr reduce e Hok k l Et) as (b & E & O & R). exists [(TLM, b)]. split; [right; exists b; tauto |].
      rewrite E. cbn [flat_map]. rewrite app_nil_r. reflexivity.
    - exists []. split; [left; reflexivity | reflexivity]. }
  destruct Wt as (tlm & Ot & Et). exists tlm. split; [exact Ot |]. split.
  - unfold write_header. fold s T ts n. rewrite Wc, Et. f_equal. f_equal. unfold segs. rewrite !flat_map_app. cbn [flat_map].
    rewrite !app_nil_r, Ws, Wq. f_equal. f_equal. f_equal.
    assert (W1 : write_all_coc n ts old = flat_map seg (flat_map coc_segs (seq 1 (Z.to_nat (n - 1))))).
    { unfold write_all_coc, others. rewrite flat_map_map, flat_map_flat_map. apply flat_map_ext_in. intros i Hi. unfold coc_segs. fold t0.
      destruct (same_coc t0 (at_ ts (Z.of_nat i))); [reflexivity |]. cbn [flat_map]. rewrite app_nil_r.
      apply (write_coc_seg other ihdr reduce e Hok), in_bound, Hi. }
    assert (W2 : write_all_qcc n ts = flat_map seg (flat_map qcc_segs (seq 1 (Z.to_nat (n - 1))))).
    { unfold write_all_qcc, others. rewrite flat_map_map, flat_map_flat_map. apply flat_map_ext_in. intros i Hi. unfold qcc_segs. fold t0.
      destruct (same_sq t0 (at_ ts (Z.of_nat i))); [reflexivity |]. cbn [flat_map]. rewrite app_nil_r.
      apply (write_qcc_seg other ihdr reduce e Hok), in_bound, Hi. }
    assert (W3 : write_regions n ts = flat_map seg (flat_map rgn_segs (seq 0 (Z.to_nat n)))).
    { unfold write_regions, others. replace (0 :: map Z.of_nat (seq 1 (Z.to_nat (n - 1)))) with (map Z.of_nat (seq 0 (Z.to_nat n))).
      - rewrite flat_map_map, flat_map_flat_map. apply flat_map_ext_in. intros i Hi. unfold rgn_segs.
        destruct (roishift (at_ ts (Z.of_nat i)) =? 0); [reflexivity |]. cbn [flat_map]. rewrite app_nil_r.
        apply (write_rgn_seg other ihdr reduce e Hok), in_bound0, Hi.
      - replace (Z.to_nat n) with (S (Z.to_nat (n - 1))) by lia. reflexivity. }
    rewrite W1, W2, W3. f_equal. f_equal. f_equal. f_equal.
    + unfold poc_segs, has_poc. fold s. destruct (e_tlm e) as [p |] eqn:E1; [| reflexivity]. destruct (rsiz s =? 4) eqn:E2; [| reflexivity].
      cbn [flat_map]. rewrite app_nil_r. apply write_poc_seg. apply Hok. unfold has_poc. fold s. rewrite E1. exact E2.
    + f_equal. unfold com_segs. destruct (e_com e) as [l |] eqn:E1; [| reflexivity]. cbn [flat_map]. rewrite app_nil_r.
      apply (write_com_seg other ihdr reduce e Hok l E1).
  - unfold segs. repeat (apply Forall_app; split).
    + constructor; [exact Os | constructor].
    + constructor; [exact Oc | constructor].
    + constructor; [exact Oq | constructor].
    + apply Forall_flat_map_in. intros i Hi. unfold coc_segs. destruct (same_coc t0 (at_ ts (Z.of_nat i))); [constructor |].
      constructor; [| constructor]. apply (write_coc_seg other ihdr reduce e Hok (Z.of_nat i) []), in_bound, Hi.
    + apply Forall_flat_map_in. intros i Hi. unfold qcc_segs. destruct (same_sq t0 (at_ ts (Z.of_nat i))); [constructor |].
      constructor; [| constructor]. apply (write_qcc_seg other ihdr reduce e Hok (Z.of_nat i)), in_bound, Hi.
    + destruct Ot as [-> | (b & -> & O & _)]; [constructor | constructor; [exact O | constructor]].
    + exact poc_segs_ok.
    + apply Forall_flat_map_in. intros i Hi. unfold rgn_segs. destruct (roishift (at_ ts (Z.of_nat i)) =? 0); [constructor |].
      constructor; [| constructor]. apply (write_rgn_seg other ihdr reduce e Hok (Z.of_nat i)), in_bound0, Hi.
    + unfold com_segs. destruct (e_com e) as [l |] eqn:E1; constructor; [| constructor]. apply (write_com_seg other ihdr reduce e Hok l E1).
Qed.

Notation R := (run other ihdr reduce).
Notation INV := (HI e).

Lemma Inv_ext : forall h q roi ps q' roi', INV h q roi ps ->
  (forall c, 0 <= c < n -> (same_quant (q c) (at_ (t_comps (h_tcp h)) c) -> same_quant (q' c) (at_ (t_comps (h_tcp h)) c)) /\ roi' c = roi c) ->
  INV h q' roi' ps.
Proof.
  intros h q roi ps q' roi' (I1 & I2 & I3 & A1 & A2 & A3 & A4 & A5 & A6 & A7) H. unfold HI, Inv. repeat (split; [assumption |]).
  intros c Hc. destruct (A7 c Hc) as (B1 & B2 & B3 & B4). destruct (H c Hc) as [H1 H2]. rewrite H2. tauto.
Qed.

Lemma run_segs : forall tlm, tlm_ok tlm ->
  exists h, R hdr0 (segs tlm) = Some h /\ INV h (at_ ts) (fun c => roishift (at_ ts c)) (if has_poc e then t_pocs T else []).
Proof.
  intros tlm Ht. pose proof (n_pos ihdr reduce e Hok) as Hn. fold s n in Hn. unfold segs.
  rewrite run_app, (run_siz other ihdr reduce e Hok) by reflexivity. fold s.
  rewrite run_app. cbn [run]. rewrite (here_mh _ s) by (try reflexivity; cbn; tauto). rewrite h_cod_eq. cbn [h_tcp h_siz h_cod h_qcd hdr0].
  destruct (read_cod_body other ihdr reduce e Hok) as (tA & EA & IA). fold s in EA. rewrite EA.
  rewrite run_app. cbn [run]. rewrite (here_mh _ s) by (try reflexivity; cbn; tauto). rewrite h_qcd_eq. cbn [h_tcp h_siz h_cod h_qcd].
  destruct (read_qcd_body other ihdr reduce e Hok tA IA) as (tB & EB & IB). fold T ts t0 in EB, IB. rewrite EB.
  assert (IB' : INV (mkHdr (Some s) tB true true) (fun _ => t0) (fun _ => 0) []) by (split; [reflexivity | split; [reflexivity | split; [reflexivity | exact IB]]]).
  rewrite run_app.
  destruct (run_each other ihdr reduce (fun _ h => INV h (fun _ => t0) (fun _ => 0) []) coc_segs (Z.to_nat (n - 1)) 1 _ IB') as (hC & EC & IC).
  { intros c h Hc Ih. unfold coc_segs. destruct (same_coc t0 (at_ ts (Z.of_nat c))); [exists h; split; [reflexivity | exact Ih] |].
    apply (run_coc other ihdr reduce e Hok); [exact Ih | fold s n; lia]. }
  rewrite EC. rewrite run_app.
  destruct (run_each other ihdr reduce (fun k h => INV h (fun c => if c <? Z.of_nat k then at_ ts c else t0) (fun _ => 0) []) qcc_segs (Z.to_nat (n - 1)) 1 hC) as (hD & ED & ID).
  { eapply Inv_ext; [exact IC |]. intros c Hc. split; [| reflexivity]. intros Q. destruct (Z.ltb_spec c (Z.of_nat 1)); [| exact Q].
    assert (c = 0) by lia. subst c. exact Q. }
  { intros c h Hc Ih. unfold qcc_segs. destruct (same_sq t0 (at_ ts (Z.of_nat c))) eqn:Es.
    - exists h. split; [reflexivity |]. eapply Inv_ext; [exact Ih |]. intros i Hi. cbv beta. split; [| reflexivity]. intros Q.
      destruct (Z.ltb_spec i (Z.of_nat (S c))), (Z.ltb_spec i (Z.of_nat c)); try exact Q; [| lia].
      assert (i = Z.of_nat c) by lia. subst i. eapply same_sq_spec; [| | exact Es | exact Q].
      + destruct (ok_at ihdr reduce e Hok 0 ltac:(fold s n; lia)) as ((Hr & _) & _). exact Hr.
      + destruct (ok_at ihdr reduce e Hok (Z.of_nat c) ltac:(fold s n; lia)) as ((Hr & _) & _). exact Hr.
    - destruct (run_qcc other ihdr reduce e Hok h _ _ _ (Z.of_nat c) Ih ltac:(fold s n; lia)) as (h' & E' & I'). fold T ts in I'.
      exists h'. split; [exact E' |]. eapply Inv_ext; [exact I' |]. intros i Hi. cbv beta. split; [| reflexivity]. intros Q.
      destruct (Z.eqb_spec i (Z.of_nat c)) as [-> | N].
      + destruct (Z.ltb_spec (Z.of_nat c) (Z.of_nat (S c))); [exact Q | lia].
      + destruct (Z.ltb_spec i (Z.of_nat (S c))), (Z.ltb_spec i (Z.of_nat c)); try exact Q; lia. }
  rewrite ED. assert (ID' : INV hD (at_ ts) (fun _ => 0) []).
  { eapply Inv_ext; [exact ID |]. intros c Hc. cbv beta. split; [| reflexivity]. intros Q.
    destruct (Z.ltb_spec c (Z.of_nat (1 + Z.to_nat (n - 1)))); [exact Q | lia]. }
  clear ID. rewrite run_app.
  assert (ET : R hD tlm = Some hD).
  { destruct Ht as [-> | (b & -> & _ & Hb)]; [reflexivity |]. apply (run_tlm other ihdr reduce e hD _ _ _ b ID' Hb). }
  rewrite ET. rewrite run_app.
  assert (EP : exists hP, R hD poc_segs = Some hP /\ INV hP (at_ ts) (fun _ => 0) (if has_poc e then t_pocs T else [])).
  { unfold poc_segs. destruct (has_poc e) eqn:Ep; [| exists hD; split; [reflexivity | exact ID']].
    destruct Hok as (_ & _ & _ & _ & _ & Hl & _ & _ & _ & _ & Hpo). destruct (Hpo Ep) as [Hp1 Hp2]. fold s n T in Hp2, Hl. fold T in Hp1.
    destruct ID' as (I1 & I2 & I3 & A1 & A2 & A3 & A4 & A5 & A6 & A7). fold s T n in I1, A1, A2, A3, A4, A6.
    cbn [run]. rewrite (here_mh _ s) by (try exact I1; cbn; tauto). rewrite (h_poc_eq other ihdr reduce hD _ s I1). fold n.
    rewrite read_poc_write; [| lia | lia | lia | rewrite A5; cbn [List.length]; lia | rewrite A3; exact Hp2]. cbn [set_tcp].
    eexists. split; [reflexivity |]. unfold HI, Inv. cbn [h_siz h_cod h_qcd h_tcp t_csty t_prg t_layers t_mct t_comps t_pocs].
    rewrite A5. cbn [app]. repeat (split; [first [assumption | reflexivity] |]). exact A7. }
  destruct EP as (hP & EP & IP). rewrite EP. rewrite run_app.
  set (PS := if has_poc e then t_pocs T else []) in *.
  destruct (run_each other ihdr reduce (fun k h => INV h (at_ ts) (fun c => if c <? Z.of_nat k then roishift (at_ ts c) else 0) PS) rgn_segs (Z.to_nat n) 0 hP) as (hR & ER & IR).
  { eapply Inv_ext; [exact IP |]. intros c Hc. cbv beta. split; [tauto |]. destruct (Z.ltb_spec c (Z.of_nat 0)); [lia | reflexivity]. }
  { intros c h Hc Ih. unfold rgn_segs. destruct (Z.eqb_spec (roishift (at_ ts (Z.of_nat c))) 0) as [Er | Nr].
    - exists h. split; [reflexivity |]. eapply Inv_ext; [exact Ih |]. intros i Hi. cbv beta. split; [tauto |].
      destruct (Z.ltb_spec i (Z.of_nat (S c))), (Z.ltb_spec i (Z.of_nat c)); try reflexivity; try lia.
      assert (i = Z.of_nat c) by lia. subst i. exact Er.
    - destruct (run_rgn other ihdr reduce e Hok h _ _ _ (Z.of_nat c) Ih ltac:(fold s n; lia)) as (h' & E' & I'). fold T ts in I'.
      exists h'. split; [exact E' |]. eapply Inv_ext; [exact I' |]. intros i Hi. cbv beta. split; [tauto |].
      destruct (Z.eqb_spec i (Z.of_nat c)) as [-> | N].
      + destruct (Z.ltb_spec (Z.of_nat c) (Z.of_nat (S c))); [reflexivity | lia].
      + destruct (Z.ltb_spec i (Z.of_nat (S c))), (Z.ltb_spec i (Z.of_nat c)); try reflexivity; lia. }
  rewrite ER. assert (IR' : INV hR (at_ ts) (fun c => roishift (at_ ts c)) PS).
  { eapply Inv_ext; [exact IR |]. intros c Hc. cbv beta. split; [tauto |]. destruct (Z.ltb_spec c (Z.of_nat (0 + Z.to_nat n))); [reflexivity | lia]. }
  exists hR. split; [| exact IR']. unfold com_segs. destruct (e_com e); [| reflexivity]. apply (run_com other ihdr reduce e hR _ _ _ _ IR').
Qed.

Lemma segs_len : forall l, (List.length l <= List.length (flat_map seg l))%nat.
Proof. induction l as [| x l IH]; [cbn; lia |]. cbn [flat_map List.length]. unfold seg at 1. rewrite !app_length, !be_len by lia. lia. Qed.

Lemma main_header : forall old rest, exists hd t, write_header e old = Some hd /\
  read_header other ihdr reduce (hd ++ be 2 SOT ++ rest) = Some (s, t, rest) /\
  Inv e t (at_ ts) (fun c => roishift (at_ ts c)) (if has_poc e then t_pocs T else []).
Proof.
  intros old rest. destruct (header_segs old) as (tlm & Ot & Ew & Fs). destruct (run_segs tlm Ot) as (h & Er & Ih).
  exists (be 2 SOC ++ flat_map seg (segs tlm)), (h_tcp h). split; [exact Ew |]. destruct Ih as (I1 & I2 & I3 & I4). split; [| exact I4].
  unfold read_header. rewrite <- app_assoc. rewrite rd2 by (split; [intros A; discriminate | reflexivity]). rewrite Z.eqb_refl. cbn [negb].
  destruct (rd 2 (flat_map seg (segs tlm) ++ be 2 SOT ++ rest)) as [[m d] |] eqn:Erd.
  - destruct (read_run other ihdr reduce (segs tlm) hdr0 h (S (List.length d)) rest Fs Er) as (m' & d' & E1 & E2).
    { pose proof (rd_len _ _ _ _ Erd) as L. rewrite !app_length, be_len in L by lia. pose proof (segs_len (segs tlm)). lia. }
    rewrite Erd in E1. assert (m' = m /\ d' = d) as [-> ->] by (split; congruence). rewrite E2, I1, I2, I3. reflexivity.
  - exfalso. unfold rd in Erd. rewrite !app_length, be_len in Erd by lia.
    match type of Erd with (if ?b then _ else _) = _ => destruct b eqn:Eb end; [| discriminate]. apply Nat.ltb_lt in Eb. lia.
Qed.

End Main.
