(** Reading some packets and skipping others, against reading all of them. *)

From Coq Require Import ZArith List Bool Arith Lia.
From Verif Require Import BioModel TgtModel Ints T2CodesModel T2PacketModel T2PacketSkip PiModel PacketsModel.
Import ListNotations.
Local Open Scope Z_scope.

(** How many blocks each band has. *)
Definition shape (l : list dband) : list nat := map (fun b => length (db_blocks b)) l.

Lemma dec_blocks_len : forall fuel sty lay nb l incl imsb i r a b m r', dec_blocks fuel sty lay nb incl imsb i l r = Some (a, b, m, r') -> length m = length l.
Proof.
  intros fuel sty lay nb l. induction l as [| c l IH]; intros incl imsb i r a b m r' E; cbn [dec_blocks] in E; [injection E as <- <- <- <-; reflexivity |].
  destruct (dec_block _ _ _ _ _ _ _ _ _) as [[[[x y] z] t] |]; [| discriminate]. destruct (dec_blocks fuel sty lay nb x y (S i) l t) as [[[[x' y'] z'] t'] |] eqn:D; [| discriminate].
  injection E as <- <- <- <-. cbn [length]. f_equal. eapply IH, D.
Qed.
Lemma dec_bands_shape : forall fuel sty lay l r m r', dec_bands fuel sty lay l r = Some (m, r') -> shape m = shape l.
Proof.
  intros fuel sty lay l. induction l as [| b l IH]; intros r m r' E; cbn [dec_bands] in E; [injection E as <- <-; reflexivity |].
  destruct (dec_blocks _ _ _ _ _ _ _ _ _) as [[[[x y] z] t] |] eqn:B; [| discriminate]. destruct (dec_bands fuel sty lay l t) as [[l' t'] |] eqn:D; [| discriminate].
  injection E as <- <-. unfold shape in *. cbn [map db_blocks]. f_equal; [eapply dec_blocks_len, B | eapply IH, D].
Qed.
Lemma start_shape : forall l, shape (map dec_start l) = shape l.
Proof. intros l. unfold shape. rewrite map_map. apply map_ext. intros b. unfold dec_start. cbn [db_blocks]. apply map_length. Qed.
Lemma read_blocks_len : forall l d m d', read_blocks l d = Some (m, d') -> length m = length l.
Proof.
  induction l as [| c l IH]; intros d m d' E; cbn [read_blocks] in E; [injection E as <- <-; reflexivity |].
  destruct (read_block c d) as [[c' d1] |]; [| discriminate]. destruct (read_blocks l d1) as [[l' d2] |] eqn:D; [| discriminate]. injection E as <- <-. cbn [length]. f_equal. eapply IH, D.
Qed.
Lemma read_data_shape : forall l d m d', read_data l d = Some (m, d') -> shape m = shape l.
Proof.
  induction l as [| b l IH]; intros d m d' E; cbn [read_data] in E; [injection E as <- <-; reflexivity |].
  destruct (read_blocks (db_blocks b) d) as [[bl d1] |] eqn:B; [| discriminate]. destruct (read_data l d1) as [[l' d2] |] eqn:D; [| discriminate].
  injection E as <- <-. unfold shape in *. cbn [map db_blocks]. f_equal; [eapply read_blocks_len, B | eapply IH, D].
Qed.
Lemma decode_shape : forall sty csty lay l data m rest, decode_packet sty csty lay l data = Some (m, rest) -> shape m = shape l.
Proof.
  intros sty csty lay l data m rest E. unfold decode_packet in E.
  destruct (read_header sty csty lay l data) as [[[l' p] d] |] eqn:H; [| discriminate].
  assert (S : shape l' = shape l).
  { unfold read_header in H. assert (S0 : shape (if (lay =? 0)%nat then map dec_start l else l) = shape l) by (destruct (lay =? 0)%nat; [apply start_shape | reflexivity]).
    destruct (read1 _) as [pr r]. destruct pr; cbn [negb] in H.
    - destruct (dec_bands _ _ _ _ _) as [[l1 r1] |] eqn:D; [| discriminate]. destruct (inalign r1) as [r2 ok]. destruct ok; [| discriminate]. injection H as <- <- <-.
      rewrite (dec_bands_shape _ _ _ _ _ _ _ D). exact S0.
    - injection H as <- <- <-. exact S0. }
  destruct p; [rewrite (read_data_shape _ _ _ _ E); exact S | injection E as <- <-; exact S].
Qed.

Lemma same_place_spec : forall p q, same_place p q = true <-> p = q.
Proof.
  intros [[a b] c] [[a' b'] c']. unfold same_place. cbn [fst snd]. rewrite !andb_true_iff, !Z.eqb_eq. split; [intros [[-> ->] ->]; reflexivity | intros E; injection E as -> -> ->; auto].
Qed.

Lemma read_shape : forall sty csty ps st data st' rest, read_packets sty csty (fun _ => true) st ps data = Some (st', rest) -> forall p, shape (st' p) = shape (st p).
Proof.
  intros sty csty. induction ps as [| q ps IH]; intros st data st' rest E p; cbn [read_packets] in E; [injection E as <- <-; reflexivity |].
  cbv zeta in E. destruct (decode_packet _ _ _ _ _) as [[l d] |] eqn:D; [| discriminate]. rewrite (IH _ _ _ _ E p). unfold store.
  destruct (same_place p (place_of q)) eqn:Q; [| reflexivity]. apply same_place_spec in Q. subst p. eapply decode_shape, D.
Qed.

(** Two runs that differ in what is wanted: both fail or both leave the same
    bytes; places all of whose packets are wanted alike end up the same. *)
Lemma read_step : forall sty csty ps want want' st st' data (same : place -> Prop), (forall p, bands_lens (st p)) -> Z.of_nat (length data) < 2 ^ 32 ->
  (forall p, map strip_band (st p) = map strip_band (st' p)) -> (forall p, same p -> st p = st' p) -> (forall q, In q ps -> same (place_of q) -> want q = want' q) ->
  match read_packets sty csty want st ps data, read_packets sty csty want' st' ps data with
  | Some (s1, r1), Some (s2, r2) => r1 = r2 /\ forall p, same p -> s1 p = s2 p
  | None, None => True
  | _, _ => False
  end.
Proof.
  intros sty csty. induction ps as [| q ps IH]; intros want want' st st' data same Hl Hd Hst Hsame Hw; cbn [read_packets]; [split; [reflexivity | exact Hsame] |].
  cbv zeta. set (p := place_of q) in *.
  pose proof (one_agree (want q) (want' q) (sty (comp_of p)) csty (Z.to_nat (layer_no q)) (st p) (st' p) data (Hst p) (Hl p) Hd) as G.
  pose proof (fun H : same p => Hw q (or_introl eq_refl) H) as W. unfold one_packet in G.
  assert (E : same p -> (if want q then decode_packet else skip_packet) (sty (comp_of p)) csty (Z.to_nat (layer_no q)) (st p) data =
                        (if want' q then decode_packet else skip_packet) (sty (comp_of p)) csty (Z.to_nat (layer_no q)) (st' p) data)
    by (intros H; rewrite (W H), (Hsame p H); reflexivity).
  replace ((if want q then decode_packet else skip_packet) (sty (comp_of p)) csty (Z.to_nat (layer_no q)) (st p) data)
    with (if want q then decode_packet (sty (comp_of p)) csty (Z.to_nat (layer_no q)) (st p) data else skip_packet (sty (comp_of p)) csty (Z.to_nat (layer_no q)) (st p) data) in * by (destruct (want q); reflexivity).
  replace ((if want' q then decode_packet else skip_packet) (sty (comp_of p)) csty (Z.to_nat (layer_no q)) (st' p) data)
    with (if want' q then decode_packet (sty (comp_of p)) csty (Z.to_nat (layer_no q)) (st' p) data else skip_packet (sty (comp_of p)) csty (Z.to_nat (layer_no q)) (st' p) data) in * by (destruct (want' q); reflexivity).
  destruct (if want q then _ else _) as [[a r] |], (if want' q then _ else _) as [[b r'] |]; try contradiction; [| exact I].
  destruct G as (G1 & <- & G3 & G4). pose proof (suf_length _ _ G3) as Hlen.
  apply (IH want want' (store p a st) (store p b st') r same).
  - intros x. unfold store. destruct (same_place x p); [exact G4 | apply Hl].
  - lia.
  - intros x. unfold store. destruct (same_place x p); [exact G1 | apply Hst].
  - intros x Hx. unfold store. destruct (same_place x p) eqn:Q; [| apply Hsame, Hx]. apply same_place_spec in Q. subst x. specialize (E Hx). congruence.
  - intros x Hx. apply Hw. right. exact Hx.
Qed.
