(** C78 and C79: custom multi-component transforms in code-stream headers. *)

From Coq Require Import ZArith List Bool Lia.
From Verif Require Import Ints CioModel CioProps HdrModel HdrBytes CmtModel CmtSpec CmtFloat CmtSafe CmtRound.
Import ListNotations.
Local Open Scope Z_scope.

(** ** C78: the transform comes back

    [m] is the matrix, as binary32 patterns by rows; [dc] are the level shifts;
    [comps] are the precisions and signs of the components. *)
Theorem c78_written : forall m dc comps, let n := length comps in
  (1 <= n <= 127)%nat -> Forall (fun c => 1 <= fst c <= 31 /\ (snd c = 0 \/ snd c = 1)) comps ->
  length m = (n * n)%nat -> Forall (fun v => 0 <= v < 2 ^ 32) m -> length dc = n -> Forall (fun v => Z.abs v <= 2 ^ 24) dc ->
  exists o t, Forall2 float_bits dc o /\ setup (encoder (Some m) dc) (Z.of_nat n) = Some (Some t) /\
    write_group t comps = Some (flat_map segment_bytes (group m o comps)).
Proof.
  intros m dc comps n Hn Hc Lm Fm Ld Fd. destruct (write_group_bytes m dc comps Hn Hc Lm Fm Ld Fd) as (t & E1 & E2).
  exists (map f32_int dc), t. split; [apply floats_of; exact Fd | split; [exact E1 | exact E2]].
Qed.

(** Those segments read in any decoder that met no collection before: whatever CBD, MCT and
    MCO segments came first. *)
Theorem c78_read : forall l comps0 comps m dc o d, let n := length comps in
  (1 <= n <= 127)%nat -> length comps0 = n -> Forall (fun c => 1 <= fst c <= 31 /\ (snd c = 0 \/ snd c = 1)) comps ->
  length m = (n * n)%nat -> Forall (fun v => 0 <= v < 2 ^ 32) m ->
  length dc = n -> Forall (fun v => Z.abs v <= 2 ^ 24) dc -> Forall2 float_bits dc o ->
  Forall (fun s => Forall is_byte (snd s) /\ len (snd s) < 65536) l -> Forall (fun s => fst s <> MCC) l ->
  segments (default comps0, comps0) l = Some (Some d) ->
  exists t, segments d (group m o comps) = Some (Some (t, comps)) /\ matrix t = Some m /\ shifts t = dc.
Proof. exact read_group. Qed.

(** Two components; the matrix 1 2 / 0 -1. *)
Ltac run x := let r := eval vm_compute in x in match r with Some (Some (?t, _)) => exists t | Some (Some ?t) => exists t end.
Definition ex_m := [1065353216; 1073741824; 0; 3212836864].
Definition ex_comps := [(8, 0); (12, 1)].
Example c78_ex_written : exists t, setup (encoder (Some ex_m) [128; -3]) 2 = Some (Some t) /\ write_group t ex_comps = Some
  ([255; 120; 0; 6; 0; 2; 7; 139] ++
   [255; 116; 0; 24; 0; 0; 9; 1; 0; 0; 63; 128; 0; 0; 64; 0; 0; 0; 0; 0; 0; 0; 191; 128; 0; 0] ++
   [255; 116; 0; 16; 0; 0; 10; 2; 0; 0; 67; 0; 0; 0; 192; 64; 0; 0] ++
   [255; 117; 0; 21; 0; 0; 3; 0; 0; 0; 1; 1; 0; 2; 0; 1; 0; 2; 0; 1; 0; 2; 1] ++ [255; 119; 0; 4; 1; 3]).
Proof. run (setup (encoder (Some ex_m) [128; -3]) 2). split; vm_compute; reflexivity. Qed.
Example c78_ex_read : exists t, segments (default [(8, 0); (8, 0)], [(8, 0); (8, 0)]) (group ex_m [1124073472; 3225419776] ex_comps) = Some (Some (t, ex_comps)) /\
  matrix t = Some ex_m /\ shifts t = [128; -3].
Proof. match goal with |- exists t, ?x = _ /\ _ => run x end. split; [vm_compute; reflexivity | split; reflexivity]. Qed.

(** A decoder that has read a collection before does not take the next one: the stage
    names the second record, and only the first is looked at. *)
Theorem c78_second_refuted : forall c, 0 <= c < 2 ^ 32 -> let comps := [(8, 0)] in
  exists t, segments (default comps, comps) ((MCC, mcc_body 9 1 0 0) :: group [c] [0] comps) = Some (Some (t, comps)) /\ matrix t = None.
Proof.
  intros c _ comps. change (group [c] [0] comps) with
    [(65400, cbd_body comps); (65396, mct_body 1 1 2 [c / 2 ^ 24; (c / 2 ^ 16) mod 256; (c / 2 ^ 8) mod 256; c mod 256]);
     (65396, mct_body 2 2 2 [0; 0; 0; 0]); (65397, mcc_body 3 1 1 2); (65399, mco_body 3)].
  generalize (c / 2 ^ 24) ((c / 2 ^ 16) mod 256) ((c / 2 ^ 8) mod 256) (c mod 256). clear c. intros b0 b1 b2 b3. match goal with |- exists t, ?x = _ /\ _ => run x end. split; [vm_compute; reflexivity | reflexivity].
Qed.

(** An array of 16-bit integers is read as if they had no sign: -1 becomes 65535. *)
Theorem c78_int16_refuted : let comps := [(8, 0)] in exists t,
  segments (default comps, comps) [(MCT, mct_body 1 1 0 [255; 255]); (MCC, mcc_body 3 1 1 0); (MCO, mco_body 3)] = Some (Some (t, comps)) /\
  matrix t = Some [1199570688] /\ float_bits 65535 1199570688 /\ ~ float_bits (-1) 1199570688.
Proof.
  cbv zeta. match goal with |- exists t, ?x = _ /\ _ => run x end. split; [vm_compute; reflexivity |]. split; [reflexivity |]. split.
  - right. split; [discriminate |]. exists 15, 16776960. repeat split; discriminate || reflexivity.
  - intros H. apply bits_back in H; [| cbv; discriminate]. destruct H as [H _]. vm_compute in H. discriminate H.
Qed.

(** From 128 components on the length of the matrix segment does not fit its field. *)
Theorem c78_many_refuted : forall n data, 128 <= n <= 16384 -> Z.of_nat (length data) = 4 * (n * n) ->
  exists a b r, write_mct (MRec 1 1 2 (Some data)) = w16 65396 ++ [a; b] ++ r /\ 0 <= a < 256 /\ 0 <= b < 256 /\ 256 * a + b <> Z.of_nat (length r) + 2.
Proof.
  intros n data Hn L. unfold write_mct, len. cbn [rec_bytes r_data r_index r_array r_elem].
  exists (Z.land (Z.shiftr (u32 (u32 (10 + Z.of_nat (length data)) - 2)) 8) 255), (Z.land (u32 (u32 (10 + Z.of_nat (length data)) - 2)) 255).
  eexists. split; [reflexivity |]. pose proof (land255 (Z.shiftr (u32 (u32 (10 + Z.of_nat (length data)) - 2)) 8)). pose proof (land255 (u32 (u32 (10 + Z.of_nat (length data)) - 2))).
  split; [assumption |]. split; [assumption |]. rewrite !app_length, !be_len by lia. rewrite L in *. nia.
Qed.

(** A code-stream that says that its components go through such a transform is refused. *)
Lemma some_field : forall n x r, (1 <= n <= 4)%nat -> exists v, rd n (be n x ++ r) = Some (v, r).
Proof.
  intros n x r H. destruct (rd_some n (be n x ++ r)) as (v & q & E); [rewrite app_length, be_len by exact H; lia |]. exists v. rewrite E. f_equal. f_equal.
  unfold rd in E. destruct (_ <? _)%nat; [discriminate E |]. injection E as _ <-. rewrite skipn_app, be_len by exact H. rewrite Nat.sub_diag, skipn_all2 by (rewrite be_len by exact H; lia). reflexivity.
Qed.
Theorem c78_cod_refuted : forall reduce t t' b, t_mct t = 2 -> write_cod t = Some b -> read_cod reduce t' (skipn 4 b) = None.
Proof.
  intros reduce t t' b M W. unfold write_cod in W. destruct (write_sp _ _) as [l [[| |] |]]; try discriminate W.
  match type of W with Some ?y = _ => assert (Y : b = y) by congruence end. rewrite Y, M. clear W Y.
  set (x := be 1 (t_csty t) ++ be 1 (u32 (t_prg t)) ++ be 2 (t_layers t) ++ be 1 2 ++ l). assert (E : forall y, skipn 4 (be 2 COD ++ be 2 y ++ x) = x) by reflexivity. rewrite E. subst x.
  unfold read_cod. destruct (_ <? _); [reflexivity |].
  match goal with |- context [rd 1 (be 1 (t_csty t) ++ ?r)] => destruct (some_field 1 (t_csty t) r ltac:(lia)) as (v1 & ->) end. destruct (negb _); [reflexivity |].
  match goal with |- context [rd 1 (be 1 ?x ++ ?r)] => destruct (some_field 1 x r ltac:(lia)) as (v2 & ->) end.
  match goal with |- context [rd 2 (be 2 ?x ++ ?r)] => destruct (some_field 2 x r ltac:(lia)) as (v3 & ->) end. cbv zeta.
  destruct (_ || _); [reflexivity |]. rewrite rd1 by lia. reflexivity.
Qed.
Example c78_ex_cod : exists b, write_cod (mkTcp 0 0 1 2 [mkT 0 1 6 6 0 1 (fun _ => 15) (fun _ => 15) 0 2 (fun _ => 9) (fun _ => 0) 0 128] []) = Some b.
Proof. eexists. vm_compute. reflexivity. Qed.

(** Level shifts beyond 2^24 are rounded. *)
Theorem c78_shift_refuted : f32_int (2 ^ 24 + 1) = f32_int (2 ^ 24).
Proof. vm_compute. reflexivity. Qed.

(** ** C79: any segments at all

    Whatever bytes the CBD, MCT, MCC and MCO segments of the main header and then of
    the headers of a tile hold, no read or write is outside an array and no pointer
    dangles ([None]); there are at most 256 records of each kind; and the matrix and
    the level shifts have the sizes that the rest of the decoder takes them to have. *)
Definition settled (n : nat) (t : cmt) : Prop :=
  (nmct t <= 256)%nat /\ (nmcc t <= 256)%nat /\ (nmct t <= length (mcts t))%nat /\ (nmcc t <= length (mccs t))%nat /\
  match matrix t with None => True | Some m => length m = (n * n)%nat end /\ length (shifts t) = n /\
  Forall (fun c => forall p, c_deco c = Some p \/ c_off c = Some p -> fst p = gen t /\ (snd p < nmct t)%nat) (firstn (nmcc t) (mccs t)).

Lemma wf_settled : forall n t, wf n t -> settled n t.
Proof.
  intros n t W. pose proof (wf_few n t W) as [A B]. pose proof (w_mct _ _ W). pose proof (w_mcc _ _ W). unfold settled.
  split; [exact A |]. split; [exact B |]. split; [lia |]. split; [lia |]. split; [apply (w_mat _ _ W) |]. split; [apply (w_shifts _ _ W) |].
  pose proof (w_crecs _ _ W) as C. eapply Forall_impl; [| exact C]. intros c (C1 & C2 & C3) [h j] [E | E]; [rewrite E in C2; exact C2 | rewrite E in C3; exact C3].
Qed.

Theorem c79_segments : forall comps main tile,
  let ok := Forall (fun s : Z * list Z => Forall is_byte (snd s) /\ len (snd s) < 65536) in
  Z.of_nat (length comps) <= 16384 -> ok main -> ok tile ->
  segments (default comps, comps) main = Some None \/
  exists t c, segments (default comps, comps) main = Some (Some (t, c)) /\ length c = length comps /\ settled (length comps) t /\
    (copy_default t = Some None \/
     exists t1, copy_default t = Some (Some t1) /\ settled (length comps) t1 /\
       (segments (t1, c) tile = Some None \/
        exists t2 c2, segments (t1, c) tile = Some (Some (t2, c2)) /\ length c2 = length comps /\ settled (length comps) t2)).
Proof.
  intros comps main tile ok Hc Hm Ht. assert (Lc : len comps <= 16384) by (unfold len; lia).
  destruct (segments_safe main (default comps) comps (default_wf comps) Hm Lc) as [X | (t & c & X & L & W & _)]; [left; exact X | right].
  exists t, c. split; [exact X |]. split; [exact L |]. split; [apply wf_settled; exact W |].
  destruct (copy_safe _ t W) as [Y | (t1 & Y & W1)]; [left; exact Y | right]. exists t1. split; [exact Y |]. split; [apply wf_settled; exact W1 |].
  rewrite <- L in W1. destruct (segments_safe tile t1 c W1 Ht) as [V | (t2 & c2 & V & L2 & W2 & _)]; [unfold len in *; lia | left; exact V | right].
  exists t2, c2. split; [exact V |]. split; [congruence |]. apply wf_settled. rewrite <- L. exact W2.
Qed.

Example c79_ex : exists t, segments (default [(8, 0)], [(8, 0)]) [(MCT, mct_body 7 1 0 [0; 5]); (MCC, mcc_body 3 1 7 0); (MCO, mco_body 3); (CBD, [0; 1; 135])] = Some (Some (t, [(8, 1)])) /\
  matrix t = Some [1084227584] /\ shifts t = [0] /\ copy_default t <> Some None.
Proof. match goal with |- exists t, ?x = _ /\ _ => run x end. split; [vm_compute; reflexivity |]. split; [reflexivity |]. split; [reflexivity | vm_compute; discriminate]. Qed.
Example c79_ex_short : segments (default [(8, 0)], [(8, 0)]) [(MCT, [0])] = Some None.
Proof. vm_compute. reflexivity. Qed.

Print Assumptions c78_written.
Print Assumptions c78_read.
Print Assumptions c78_second_refuted.
Print Assumptions c78_int16_refuted.
Print Assumptions c78_many_refuted.
Print Assumptions c78_cod_refuted.
Print Assumptions c79_segments.
