(** C44: the parameters of an accepted main header are in range. *)

From Coq Require Import ZArith List Bool Lia.
From Verif Require Import Ints I32 Mem CioModel CioProps MathProps HdrModel HdrSpec HdrBytes HdrSegs HdrRun HdrSafe HdrProps.
Import ListNotations.
Local Open Scope Z_scope.

(** Whatever the bytes: if they are accepted, all parameters are in range, in
    every order and repetition of segments.  The handlers not modelled are only
    assumed not to leave the ranges. *)
Theorem c44_in_range : forall other ihdr reduce d s t rest,
  (forall m h d h', bytes d -> good ihdr reduce h -> other m h d = Some h' -> good ihdr reduce h') ->
  bytes d -> read_header other ihdr reduce d = Some (s, t, rest) ->
  siz_ok s /\ fits ihdr s /\
  Z.of_nat (List.length (t_comps t)) = numcomps s /\
  0 <= t_csty t <= 7 /\ -1 <= t_prg t <= 4 /\ 1 <= t_layers t <= 65535 /\ 0 <= t_mct t <= 1 /\
  (List.length (t_pocs t) < 32)%nat /\ Forall (poc_range (numcomps s)) (t_pocs t) /\
  forall c, 0 <= c < numcomps s ->
    style_ok reduce (at_ (t_comps t) c) /\ quant_range (at_ (t_comps t) c) /\
    dcshift (at_ (t_comps t) c) = shift_of (nth (Z.to_nat c) (comps s) (mkComp 0 0 0 0)).
Proof.
  intros other ihdr reduce d s t rest Ho B H. destruct (header_good other ihdr reduce Ho d s t rest B H) as (S1 & S2 & R & _).
  pose proof (comps_count _ _ _ _ R) as L. destruct R as (R1 & R2 & R3 & R4 & R5 & R6). destruct (R6 eq_refl) as [(C1 & C2 & C3 & C4) F].
  split; [exact S1 |]. split; [exact S2 |]. split; [exact L |]. do 4 (split; [assumption |]). split; [exact R4 |]. split; [exact R5 |].
  intros c Hc. rewrite Forall_forall in R3, F. assert (I : In (at_ (t_comps t) c) (t_comps t)) by (apply at_in; lia).
  split; [apply F, I |]. split; [apply R3, I |].
  assert (Lc : (Z.to_nat c < List.length (comps s))%nat) by (unfold numcomps in Hc; lia).
  unfold at_. rewrite (nth_indep _ _ (fresh (mkComp 0 0 0 0))) by lia. rewrite <- (map_nth dcshift), R2.
  rewrite (nth_indep _ _ (shift_of (mkComp 0 0 0 0))) by (rewrite map_length; lia). apply map_nth.
Qed.

(** A header for a 2 x 2 image of one component with the given segments after SIZ. *)
Definition headed (l : list (Z * list Z)) : list Z :=
  be 2 SOC ++ seg (SIZ, siz_body small_siz) ++ flat_map seg l ++ be 2 SOT ++ [0; 10].
Definition cod1 (layers levels : Z) : Z * list Z := (COD, [0; 0] ++ be 2 layers ++ [0; levels; 4; 4; 0; 1]).
Definition result (l : list (Z * list Z)) : option tcp :=
  match read_header nothing_else (0, 0) 0 (headed l) with Some (s, t, r) => Some t | None => None end.

(** Not guaranteed: that a progression ends within the layers.  It is cut to the
    layers known when it is read, and a later COD can give fewer. *)
Theorem c44_poc_layers_refuted : exists l t, result l = Some t /\ t_layers t = 1 /\ map p_lay1 (t_pocs t) = [9].
Proof.
  exists [cod1 10 0; (QCD, [64; 72]); (POC, [0; 0; 0; 9; 1; 1; 0]); cod1 1 0]. eexists. split; [vm_compute; reflexivity |]. split; vm_compute; reflexivity.
Qed.

(** Not guaranteed: a step size for every subband.  Here there are four subbands
    and one step size; the others stay 0. *)
Theorem c44_steps_refuted : exists l t, result l = Some t /\ map numres (t_comps t) = [2] /\
  map (fun c => map (expn c) [0; 1; 2; 3]) (t_comps t) = [[9; 0; 0; 0]].
Proof.
  exists [cod1 1 1; (QCD, [64; 72])]. eexists. split; [vm_compute; reflexivity |]. split; vm_compute; reflexivity.
Qed.

(** Not guaranteed: a quantisation style the standard knows (0, 1 or 2). *)
Theorem c44_qntsty_refuted : exists l t, result l = Some t /\ map qntsty (t_comps t) = [31].
Proof. exists [cod1 1 0; (QCD, [95; 72; 0])]. eexists. split; vm_compute; reflexivity. Qed.

(** Not guaranteed: a known progression order, neither from COD (taken as
    unknown, -1) nor from POC (taken as it is). *)
Theorem c44_prg_refuted : exists l t, result l = Some t /\ t_prg t = -1 /\ map p_prg (t_pocs t) = [200].
Proof.
  exists [(COD, [0; 7; 0; 1; 0; 0; 4; 4; 0; 1]); (QCD, [64; 72]); (POC, [0; 0; 0; 1; 1; 1; 200])]. eexists.
  split; [vm_compute; reflexivity |]. split; vm_compute; reflexivity.
Qed.

(** Not guaranteed: that a progression starts at an existing component. *)
Theorem c44_poc_component_refuted : exists l t, result l = Some t /\ map p_comp0 (t_pocs t) = [77].
Proof. exists [cod1 1 0; (QCD, [64; 72]); (POC, [0; 77; 0; 1; 1; 1; 0])]. eexists. split; vm_compute; reflexivity. Qed.

(** Examples: what is refused. *)
Example ex_no_layers : result [cod1 0 0; (QCD, [64; 72])] = None. Proof. vm_compute. reflexivity. Qed.
Example ex_levels : result [cod1 1 33; (QCD, [64; 72])] = None. Proof. vm_compute. reflexivity. Qed.
Example ex_no_qcd : result [cod1 1 0] = None. Proof. vm_compute. reflexivity. Qed.
Example ex_no_cod : result [(QCD, [64; 72])] = None. Proof. vm_compute. reflexivity. Qed.
Example ex_two_siz : result [(SIZ, siz_body small_siz); cod1 1 0; (QCD, [64; 72])] = None. Proof. vm_compute. reflexivity. Qed.
Example ex_component : result [cod1 1 0; (QCD, [64; 72]); (RGN, [1; 0; 3])] = None. Proof. vm_compute. reflexivity. Qed.

Print Assumptions c44_in_range.
