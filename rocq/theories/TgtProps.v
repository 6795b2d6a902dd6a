(** Property C18: tag trees. *)

From Coq Require Import ZArith List Bool Arith Lia ZifyNat.
From Verif Require Import BioModel BioSpec BioStream TgtModel TgtSpec TgtProofs TgtCoding.
Import ListNotations.
Local Open Scope nat_scope.

Ltac Zify.zify_post_hook ::= Z.div_mod_to_equations.

(** ** Creation and shape *)

(** A tree is created for every grid of leaves that fits in memory indices. *)
Theorem c18_create : forall w h, 0 < w -> 0 < h ->
  (Z.of_nat w <= 2 ^ 30)%Z -> (Z.of_nat h <= 2 ^ 30)%Z -> (Z.of_nat w * Z.of_nat h < 2 ^ 31)%Z ->
  exists t, tgt_create w h = Some t.
Proof.
  assert (G : forall f w h, 0 < w -> 0 < h -> (Z.of_nat w <= 2 ^ Z.of_nat f)%Z -> (Z.of_nat h <= 2 ^ Z.of_nat f)%Z ->
    (Z.of_nat w * Z.of_nat h < 2 ^ 31)%Z -> exists ls, levels (S f) w h = Some ls).
  { induction f; intros w h Hw Hh Bw Bh Bn; cbn [levels];
      replace (2147483647 <? Z.of_nat w * Z.of_nat h)%Z with false by (symmetry; apply Z.ltb_ge; lia).
    - assert (w = 1 /\ h = 1) as [-> ->] by (cbn in Bw, Bh; lia). cbn. eauto.
    - destruct (w * h <=? 1) eqn:E; [eauto |].
      destruct (IHf ((w + 1) / 2) ((h + 1) / 2)) as [ls Hls]; try lia.
      + replace (Z.of_nat (S f)) with (Z.of_nat f + 1)%Z in Bw by lia. rewrite Z.pow_add_r in Bw by lia. lia.
      + replace (Z.of_nat (S f)) with (Z.of_nat f + 1)%Z in Bh by lia. rewrite Z.pow_add_r in Bh by lia. lia.
      + assert (((w + 1) / 2) <= w /\ ((h + 1) / 2) <= h) as [X Y] by lia.
        assert (((w + 1) / 2) * ((h + 1) / 2) <= w * h) by (apply Nat.mul_le_mono; assumption). nia.
      + cbn [levels] in Hls. rewrite Hls. cbn. eauto. }
  intros w h Hw Hh Bw Bh Bn. destruct (G 30 w h) as [ls Hls]; try assumption.
  unfold tgt_create. rewrite Hls. destruct (levels_cons _ _ _ _ Hls) as [r ->].
  cbn [map list_sum fold_right fst snd]. destruct (Nat.eqb_spec (w * h + fold_right Nat.add 0 (map (fun d : nat * nat => fst d * snd d) r)) 0).
  - exfalso. nia.
  - eauto.
Qed.

(** The nodes form the quadtree of the standard: the node in column [x], row [y]
    of level [i] has as parent the node in column [x/2], row [y/2] of level
    [i+1], up to the level that has a single node, the root. *)
Theorem c18_shape : forall w h t, tgt_create w h = Some t ->
  t_store t = blank /\
  exists top, grid top w h = (1, 1) /\ top <= 30 /\ t_nodes t = base (S top) w h /\
    (forall i x y, i < top -> x < fst (grid i w h) -> y < snd (grid i w h) ->
       parent t (node_at i w h x y) = Some (node_at (S i) w h (x / 2) (y / 2))) /\
    parent t (node_at top w h 0 0) = None.
Proof.
  intros w h t H. destruct (create_spec _ _ _ H) as (Hw & Hh & Hb & n & Hn & H1 & H2 & H3 & H4 & H5).
  split; [exact Hb |]. exists (n - 1). split; [exact H3 |]. split; [lia |].
  replace (S (n - 1)) with n by lia. split; [exact H5 |]. split.
  - intros i x y Hi Hx Hy. apply H1; try assumption. lia.
  - unfold parent. apply nth_error_None. rewrite H2. unfold node_at. lia.
Qed.

Example c18_shape_example : exists t, tgt_create 3 2 = Some t /\
  t_parents t = [6; 6; 7; 6; 6; 7; 8; 8] /\ t_nodes t = 9.
Proof. eexists. vm_compute. repeat split. Qed.

(** At most 31 nodes are on a path, so the 31-entry stack never overflows, and
    all of them are inside the node array. *)
Theorem c18_path_in_bounds : forall w h t leaf, tgt_create w h = Some t -> leaf < w * h ->
  List.length (tgt_path t leaf) <= 31 /\ Forall (fun i => i < t_nodes t) (tgt_path t leaf).
Proof.
  intros w h t leaf H Hl. unfold tgt_path. rewrite rev_length. split; [apply (ancestors_levels w h); exact H |].
  apply Forall_rev. destruct (blank_follows w h t 0 H ltac:(lia)) as ((Hs & Hle) & _).
  assert (G : forall fuel i, i < t_nodes t -> Forall (fun i => i < t_nodes t) (ancestors fuel (parent t) i)).
  { induction fuel; intros i Hi; cbn [ancestors]; [constructor |]. constructor; [exact Hi |].
    destruct (parent t i) as [p |] eqn:E; [| constructor]. apply IHfuel. destruct (Hs i p E). lia. }
  apply G. lia.
Qed.

(** ** Round trip *)

Fixpoint read_bits (n : nat) (r : bio_r) : list bool * bio_r :=
  match n with
  | O => ([], r)
  | S n => let '(b, r) := read1 r in let '(bs, r) := read_bits n r in (b :: bs, r)
  end.

Lemma read_bits_src : forall l bytes r tail, Src bytes r (l ++ tail) ->
  exists r', read_bits (List.length l) r = (l, r') /\ Src bytes r' tail.
Proof.
  induction l as [| b l IH]; intros bytes r tail H; [exists r; auto |]. cbn [app] in H.
  destruct (read1_src _ _ _ _ H) as (r1 & E & H1). destruct (IH _ _ _ H1) as (r' & E' & H').
  exists r'. cbn [List.length read_bits]. rewrite E, E'. auto.
Qed.

(** Any history of settings and queries: the decoder gives the right answer to
    every query, and stops exactly behind the encoder's bits, as the following
    bits [extra] show. *)
Theorem c18_round_trip : forall w h t l extra len w' rest,
  tgt_create w h = Some t -> fair (w * h) 0 l ->
  fst (enc_run t l) ++ extra <> [] ->
  flush (putbits (init_enc len) (fst (enc_run t l) ++ extra)) = (w', true) -> Forall byte_range rest ->
  exists td r r' r'', dec_run t (init_dec (rev (w_out w') ++ rest)) l = (answers [] l, td, r) /\
    read_bits (List.length extra) r = (extra, r') /\ inalign r' = (r'', true) /\ r_in r'' = rest.
Proof.
  intros w h t l extra len w' rest H Hf Hne Hfl Hrest.
  destruct (src_of_flush _ _ _ _ Hne Hrest Hfl) as (tail & Hs & Hal). cbn zeta in Hs, Hal.
  destruct (enc_run t l) as [bs te] eqn:E. cbn [fst] in *. rewrite <- app_assoc in Hs.
  destruct (run_sync (w * h) l 0 [] t t bs te _ _ _ (blank_follows _ _ _ 0 H ltac:(lia)) Hf
    ltac:(intros i Hi; destruct (create_spec _ _ _ H) as (_ & _ & -> & _); reflexivity) E Hs) as (td & r & D & D1).
  destruct (read_bits_src _ _ _ _ D1) as (r' & E' & D2).
  destruct (Hal r' D2) as (r'' & A1 & A2 & _). exists td, r, r', r''. auto.
Qed.

Example c18_example : exists t td r, tgt_create 3 2 = Some t /\
  let l := [TSet 0 1; TSet 1 3; TSet 5 2; TQuery 0 2; TQuery 1 2; TQuery 1 4; TQuery 5 9] in
  fst (enc_run t l) = [false; true; true; true; false; false; true; false; true; true]%Z /\
  dec_run t (init_dec [114; 192]%Z) l = ([true; false; true; true], td, r).
Proof.
  eexists. eexists. eexists. split; [vm_compute; reflexivity |]. split; [vm_compute; reflexivity |].
  vm_compute. reflexivity.
Qed.

(** ** Reset *)

(** Trees that can arise from a tree by any calls, in any order. *)
Inductive reached (t : tree) : tree -> Prop :=
| reached_start : reached t t
| reached_set : forall u leaf v, reached t u -> reached t (tgt_setvalue u leaf v)
| reached_enc : forall u leaf th, reached t u -> reached t (snd (tgt_encode u leaf th))
| reached_dec : forall u leaf th r, reached t u -> reached t (snd (fst (tgt_decode u leaf th r)))
| reached_reset : forall u, reached t u -> reached t (tgt_reset u).

(** Resetting a tree, whatever was done with it, gives the freshly created tree
    again; so everything said above about created trees holds after a reset. *)
Theorem c18_reset : forall w h t u, tgt_create w h = Some t -> reached t u -> tgt_reset u = t.
Proof.
  intros w h t u H R.
  assert (G : t_parents u = t_parents t /\ t_nodes u = t_nodes t).
  { induction R; [split; reflexivity | | | |]; try (cbn; assumption).
    - unfold tgt_encode. destruct (enc_path _ _ _ _) as [bs s]. cbn. assumption.
    - unfold tgt_decode. destruct (dec_path _ _ _ _ _) as [s r']. cbn. assumption. }
  destruct G as [G1 G2]. destruct (create_spec _ _ _ H) as (_ & _ & Hb & _).
  unfold tgt_reset. rewrite G1, G2. change blank with (fun _ : nat => mkT 999 0 false) in Hb.
  destruct t as [ps n s]. cbn in *. subst s. reflexivity.
Qed.

Example c18_reset_example : exists t, tgt_create 2 1 = Some t /\
  fst (enc_run t [TSet 0 1; TSet 1 3; TQuery 1 4]) =
  fst (enc_run (tgt_reset (snd (enc_run t [TSet 0 0; TSet 1 0; TQuery 0 9; TQuery 1 9]))) [TSet 0 1; TSet 1 3; TQuery 1 4]).
Proof. eexists. split; vm_compute; reflexivity. Qed.

(** ** Thresholds above 999 *)

(** The bound 999 in [fair] cannot be dropped: the encoder writes a bit the
    decoder does not read, and the decoder then takes a leaf that was never set
    for one of value 999.  (Layer numbers reach 65534 in the format.) *)
Theorem c18_high_threshold_refuted : exists t td r, tgt_create 1 1 = Some t /\
  List.length (fst (enc_run t [TQuery 0 999; TQuery 0 1001])) = 1000%nat /\
  dec_run t (init_dec (repeat 0%Z 125)) [TQuery 0 999; TQuery 0 1001] = ([false; true], td, r) /\
  r_pos r = 125%Z /\ r_ct r = 1%Z.
Proof.
  eexists. eexists. eexists. split; [vm_compute; reflexivity |]. split; [vm_compute; reflexivity |].
  split; [vm_compute; reflexivity |]. split; vm_compute; reflexivity.
Qed.

Print Assumptions c18_create.
Print Assumptions c18_shape.
Print Assumptions c18_path_in_bounds.
Print Assumptions c18_round_trip.
Print Assumptions c18_reset.
Print Assumptions c18_high_threshold_refuted.
