(** Properties C15-C17: packet-header bit I/O. *)

From Coq Require Import ZArith List Bool Lia.
From Verif Require Import ZBits BioModel BioSpec BioProofs.
Import ListNotations.
Local Open Scope Z_scope.

(** A list of (value, width) fields with widths the writer accepts. *)
Definition fields_ok (l : list (Z * Z)) : Prop := Forall (fun f => 1 <= snd f <= 32) l.

(** ** C15 *)

(** Writing the fields always succeeds; if the final flush does too, then
    reading the same widths from the bytes, followed by anything, returns the
    values, and aligning leaves the reader exactly behind the bytes written. *)
Theorem c15_round_trip : forall len l, l <> [] -> fields_ok l ->
  exists w, write_fields (init_enc len) l = Some w /\
  forall w', flush w = (w', true) ->
  forall rest, Forall byte_range rest ->
  exists r r', read_fields (init_dec (rev (w_out w') ++ rest)) (map snd l) =
      Some (map (fun f => fst f mod 2 ^ snd f) l, r) /\
    inalign r = (r', true) /\ r_in r' = rest /\ r_numbytes r' = w_numbytes w'.
Proof.
  intros len l Hne Hl. destruct (write_fields_total l (init_enc len) Hl) as [w Hw].
  exists w. split; [exact Hw |]. intros w' Hf rest Hr. eapply bio_round_trip; eassumption.
Qed.

(** Write, flush and return the bytes, if all goes well. *)
Definition written (len : nat) (l : list (Z * Z)) : option (list Z) :=
  match write_fields (init_enc len) l with
  | Some w => let '(w, ok) := flush w in if ok then Some (rev (w_out w)) else None
  | None => None
  end.

Example c15_example : written 8 [(255, 8); (5, 3); (77, 9)] = Some [255; 82; 104] /\
  option_map fst (read_fields (init_dec [255; 82; 104; 9]) [8; 3; 9]) = Some [255; 5; 77].
Proof. vm_compute. split; reflexivity. Qed.

(** With no field at all the flush still emits a byte, which the reader never
    looks at: the condition [l <> []] cannot be dropped. *)
Example c15_empty : written 4 [] = Some [0] /\
  r_numbytes (fst (inalign (init_dec [0]))) = 0.
Proof. vm_compute. split; reflexivity. Qed.

(** ** C16 *)
Theorem c16_no_marker : forall len l w w', write_fields (init_enc len) l = Some w ->
  flush w = (w', true) -> marker_free (rev (w_out w')) /\ Forall byte_range (w_out w').
Proof.
  intros len l w w' Hw Hf. apply write_fields_bits in Hw.
  assert (Hi : winv w (field_bits l)).
  { subst w. apply (putbits_inv (field_bits l) (init_enc len) []). left. split; [apply good_init |].
    intros X. contradiction. }
  destruct Hi as [[Hg Hst] | Hroom].
  - destruct (good_flush _ _ _ Hg Hst Hf) as (k & _ & H1 & H2 & _). split; assumption.
  - exfalso. unfold flush in Hf. destruct (byteout w) as [w1 b] eqn:Eb.
    pose proof (byteout_room w Hroom) as (_ & X & _). rewrite Eb in X. cbn in X. subst b. discriminate.
Qed.

(** Without the extra byte after a final 0xFF the claim would fail here. *)
Example c16_example : written 8 [(255, 8)] = Some [255; 0].
Proof. vm_compute. reflexivity. Qed.

(** ** C17 *)

(** The writer never stores more bytes than the buffer holds, whether or not
    the flush succeeds. *)
Theorem c17_within_buffer : forall len l w, write_fields (init_enc len) l = Some w ->
  (List.length (w_out w) <= len)%nat /\ (List.length (w_out (fst (flush w))) <= len)%nat.
Proof.
  intros len l w Hw. apply write_fields_bits in Hw.
  assert (F : fits len w) by (subst w; apply putbits_fits; unfold fits; cbn; lia).
  pose proof (flush_fits _ _ F) as F'. unfold fits in *. lia.
Qed.

(** A successful flush means that every bit written is in the buffer,
    followed only by padding zeros. *)
Theorem c17_flush_complete : forall len l w w', write_fields (init_enc len) l = Some w ->
  flush w = (w', true) ->
  exists k, unstuff 0 (rev (w_out w')) = field_bits l ++ zeros k.
Proof.
  intros len l w w' Hw Hf. apply write_fields_bits in Hw.
  assert (Hi : winv w (field_bits l)).
  { subst w. apply (putbits_inv (field_bits l) (init_enc len) []). left. split; [apply good_init |].
    intros X. contradiction. }
  destruct Hi as [[Hg Hst] | Hroom].
  - destruct (good_flush _ _ _ Hg Hst Hf) as (k & H & _). exists k. exact H.
  - exfalso. unfold flush in Hf. destruct (byteout w) as [w1 b] eqn:Eb.
    pose proof (byteout_room w Hroom) as (_ & X & _). rewrite Eb in X. cbn in X. subst b. discriminate.
Qed.

(** And the flush succeeds whenever the buffer has room for the bits at seven
    per byte plus two bytes. *)
Theorem c17_flush_succeeds : forall len l w, write_fields (init_enc len) l = Some w ->
  Z.of_nat (List.length (field_bits l)) + 9 <= 7 * Z.of_nat len -> exists w', flush w = (w', true).
Proof. exact flush_capacity. Qed.

Example c17_example : written 2 [(255, 8); (255, 8)] = None.
Proof. vm_compute. reflexivity. Qed.

Print Assumptions c15_round_trip.
Print Assumptions c16_no_marker.
Print Assumptions c17_within_buffer.
Print Assumptions c17_flush_complete.
Print Assumptions c17_flush_succeeds.
