(** C19: the comma code and the pass-count code of packet headers. *)

From Coq Require Import ZArith List Bool Lia.
From Verif Require Import ZBits BioModel BioSpec BioProofs BioStream TgtModel T2CodesModel T2CodesProofs.
Import ListNotations.
Local Open Scope Z_scope.

(** A header made of [n] in comma code, followed by any other fields [after] and
    preceded by any bits [before]: the reader placed behind [before] reads [n]
    and stops in front of [after]. *)
Theorem c19_comma_code : forall bytes r n after fuel,
  0 <= n -> (Z.to_nat n < fuel)%nat -> Src bytes r (field_bits (put_commacode n) ++ after) ->
  exists r', get_commacode fuel 0 r = Some (n, r') /\ Src bytes r' after.
Proof.
  intros bytes r n after fuel Hn Hf H. rewrite commacode_bits, <- app_assoc in H. cbn [app] in H.
  destruct (get_commacode_src _ _ 0 _ _ _ Hf H) as (r' & E & H'). exists r'. rewrite E.
  split; [f_equal; f_equal; lia | exact H'].
Qed.

Theorem c19_numpasses : forall bytes r n after,
  1 <= n <= 164 -> Src bytes r (field_bits (put_numpasses n) ++ after) ->
  exists r', get_numpasses r = (n, r') /\ Src bytes r' after.
Proof. intros. apply get_numpasses_src; assumption. Qed.

(** End to end: any list of pass counts and comma coded numbers, written into a
    buffer and flushed, is read back. *)
Inductive code := Comma (n : Z) | Passes (n : Z).
Definition code_ok (c : code) : Prop := match c with Comma n => 0 <= n | Passes n => 1 <= n <= 164 end.
Definition put_code (c : code) : list (Z * Z) := match c with Comma n => put_commacode n | Passes n => put_numpasses n end.
Definition get_code (fuel : nat) (c : code) (r : bio_r) : option (code * bio_r) :=
  match c with
  | Comma _ => match get_commacode fuel 0 r with Some (n, r) => Some (Comma n, r) | None => None end
  | Passes _ => let '(n, r) := get_numpasses r in Some (Passes n, r)
  end.
Fixpoint get_codes (fuel : nat) (l : list code) (r : bio_r) : option (list code * bio_r) :=
  match l with
  | [] => Some ([], r)
  | c :: l => match get_code fuel c r with
              | Some (c, r) => match get_codes fuel l r with Some (l, r) => Some (c :: l, r) | None => None end
              | None => None
              end
  end.

Lemma get_codes_src : forall l fuel bytes r after, Forall code_ok l ->
  Forall (fun c => match c with Comma n => (Z.to_nat n < fuel)%nat | Passes _ => True end) l ->
  Src bytes r (field_bits (flat_map put_code l) ++ after) ->
  exists r', get_codes fuel l r = Some (l, r') /\ Src bytes r' after.
Proof.
  induction l as [| c l IH]; intros fuel bytes r after Hok Hf H; [exists r; auto |].
  inversion Hok; subst. inversion Hf; subst. cbn [flat_map] in H. rewrite field_bits_app, <- app_assoc in H.
  destruct c as [n | n]; cbn [put_code] in H; cbn [get_codes get_code].
  - destruct (c19_comma_code _ _ _ _ fuel H2 H4 H) as (r1 & -> & H'). destruct (IH fuel _ _ _ H3 H5 H') as (r2 & -> & H'').
    exists r2. auto.
  - destruct (c19_numpasses _ _ _ _ H2 H) as (r1 & -> & H'). destruct (IH fuel _ _ _ H3 H5 H') as (r2 & -> & H'').
    exists r2. auto.
Qed.

Theorem c19_round_trip : forall l len w w' rest fuel, l <> [] -> Forall code_ok l ->
  Forall (fun c => match c with Comma n => (Z.to_nat n < fuel)%nat | Passes _ => True end) l ->
  write_fields (init_enc len) (flat_map put_code l) = Some w -> flush w = (w', true) -> Forall byte_range rest ->
  exists r r', get_codes fuel l (init_dec (rev (w_out w') ++ rest)) = Some (l, r) /\
    inalign r = (r', true) /\ r_in r' = rest.
Proof.
  intros l len w w' rest fuel Hne Hok Hf Hw Hfl Hrest. apply write_fields_bits in Hw. subst w.
  assert (Hb : field_bits (flat_map put_code l) <> []).
  { destruct l as [| c l]; [congruence |]. cbn [flat_map]. rewrite field_bits_app. inversion Hok; subst.
    destruct c as [n | n]; cbn [put_code].
    - rewrite commacode_bits. destruct (repeat true (Z.to_nat n)); discriminate.
    - cbn [code_ok] in *. rewrite numpasses_bits by assumption.
      destruct (n =? 1), (n =? 2), (n <=? 5), (n <=? 36); discriminate. }
  destruct (src_of_flush _ _ _ _ Hb Hrest Hfl) as (tail & Hs & Hal). cbn zeta in Hs, Hal.
  destruct (get_codes_src l fuel _ _ _ Hok Hf Hs) as (r & E & H'). destruct (Hal r H') as (r' & A & B & _).
  exists r, r'. auto.
Qed.

(** The writer succeeds on every such list as long as the buffer has room:
    [bio_write] never refuses a width. *)
Theorem c19_no_panic : forall l w, exists w', write_fields w (flat_map put_code l) = Some w'.
Proof.
  intros l w. apply write_fields_total. apply Forall_forall. intros f Hf. apply in_flat_map in Hf.
  destruct Hf as (c & _ & Hc). destruct c as [n | n]; cbn [put_code] in Hc.
  - pose proof (commacode_ok n) as H. rewrite Forall_forall in H. apply H. exact Hc.
  - pose proof (numpasses_ok n) as H. rewrite Forall_forall in H. apply H. exact Hc.
Qed.

(** Outside 1..164 the pass-count code does not round trip: 0 passes are coded
    like 4, and 165 or more are not written at all. *)
Theorem c19_numpasses_range :
  field_bits (put_numpasses 0) = field_bits (put_numpasses 4) /\ forall n, 164 < n -> put_numpasses n = [].
Proof.
  split; [reflexivity |]. intros n Hn. unfold put_numpasses.
  replace (n =? 1) with false by (symmetry; apply Z.eqb_neq; lia).
  replace (n =? 2) with false by (symmetry; apply Z.eqb_neq; lia).
  replace (n <=? 5) with false by (symmetry; apply Z.leb_gt; lia).
  replace (n <=? 36) with false by (symmetry; apply Z.leb_gt; lia).
  replace (n <=? 164) with false by (symmetry; apply Z.leb_gt; lia). reflexivity.
Qed.

Example c19_example :
  match write_fields (init_enc 10) (flat_map put_code [Comma 3; Passes 1; Passes 5; Passes 36; Comma 0; Passes 164]) with
  | Some w => let '(w', ok) := flush w in
      (ok, rev (w_out w'), match get_codes 50 [Comma 0; Passes 0; Passes 0; Passes 0; Comma 0; Passes 0] (init_dec (rev (w_out w') ++ [77])) with
        | Some (l, r) => Some (l, r_in (fst (inalign r))) | None => None end)
  | None => (false, [], None)
  end = (true, [231; 127; 159; 255; 112], Some ([Comma 3; Passes 1; Passes 5; Passes 36; Comma 0; Passes 164], [77])).
Proof. vm_compute. reflexivity. Qed.

Print Assumptions c19_comma_code.
Print Assumptions c19_numpasses.
Print Assumptions c19_round_trip.
Print Assumptions c19_no_panic.
Print Assumptions c19_numpasses_range.
