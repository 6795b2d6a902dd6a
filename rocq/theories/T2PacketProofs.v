(** One packet, from the encoder to the decoder. *)

From Coq Require Import ZArith List Bool Arith Lia ZifyNat.
From Verif Require Import I32 MathModel ZBits BioModel BioSpec BioProofs BioStream TgtModel TgtProofs TgtCoding
  T2CodesModel T2CodesProofs Ints T2PacketModel T2PacketSpec T2PacketSegs.
Import ListNotations.
Local Open Scope Z_scope.

Ltac Zify.zify_post_hook ::= Z.div_mod_to_equations.

Lemma bit_fields_bits : forall bs, field_bits (bit_fields bs) = bs.
Proof.
  induction bs as [| b bs IH]; [reflexivity |]. cbn [bit_fields map]. rewrite field_bits_cons. fold (bit_fields bs).
  rewrite IH. destruct b; reflexivity.
Qed.

Lemma bit_fields_ok : forall bs, Forall (fun f => 1 <= snd f <= 32) (bit_fields bs).
Proof. intros bs. apply Forall_forall. intros f Hf. apply in_map_iff in Hf. destruct Hf as (b & <- & _). cbn. lia. Qed.

Lemma follows_mono : forall leaves m m' te td, m <= m' -> follows leaves m te td -> follows leaves m' te td.
Proof.
  intros leaves m m' te td Hm (H1 & H2 & H3 & H4 & H5 & H6 & H7). repeat (split; [assumption |]).
  split; [intros i; specialize (H6 i); lia | lia].
Qed.

Lemma tgt_encode_shape : forall t leaf th bs t', tgt_encode t leaf th = (bs, t') ->
  t_parents t' = t_parents t /\ t_nodes t' = t_nodes t.
Proof.
  intros t leaf th bs t' H. unfold tgt_encode in H. destruct (enc_path (t_store t) 0 th (tgt_path t leaf)) as [b s].
  injection H as <- <-. cbn. auto.
Qed.

(** The decoder's search for the value the encoder wrote with one query. *)
Lemma find_imsb_src : forall fuel leaves leaf te td i bs te' bytes r l,
  follows leaves 999 te td -> (leaf < leaves)%nat -> 0 <= i <= n_value (t_store te leaf) + 1 ->
  n_value (t_store te leaf) <= 998 -> n_value (t_store te leaf) + 2 <= i + Z.of_nat fuel ->
  tgt_encode te leaf 999 = (bs, te') -> Src bytes r (bs ++ l) ->
  exists td' r', find_imsb fuel td leaf i r = Some (n_value (t_store te leaf) + 1, td', r') /\ Src bytes r' l /\
    follows leaves 999 te' td' /\ forall j, n_value (t_store te' j) = n_value (t_store te j).
Proof.
  induction fuel as [| fuel IH]; intros leaves leaf te td i bs te' bytes r l Hf Hleaf Hi Hv Hfuel He Hs; [lia |].
  cbn [find_imsb].
  pose proof (encode_split leaves 999 te td leaf i 999 Hf Hleaf ltac:(lia)) as Hsp.
  destruct (tgt_encode te leaf i) as [b1 te1] eqn:E1. destruct (tgt_encode te1 leaf 999) as [b2 te2] eqn:E2.
  rewrite He in Hsp. destruct Hsp as (-> & Hsame & Hend).
  rewrite <- app_assoc in Hs.
  assert (Hi9 : i <= 999) by lia.
  destruct (query_sync _ _ _ _ _ _ _ _ _ _ _ Hf Hleaf Hi9 E1 Hs) as (td1 & r1 & Q1 & Q2 & Q3 & Q4).
  rewrite Q1. replace (Z.max 999 i) with 999 in Q3 by lia.
  destruct (tgt_encode_shape _ _ _ _ _ E1) as [P1 N1]. destruct (tgt_encode_shape _ _ _ _ _ He) as [P0 N0].
  destruct (tgt_encode_shape _ _ _ _ _ E2) as [P2 N2].
  destruct (Z.ltb_spec (n_value (t_store te leaf)) i) as [L | L].
  - destruct (Hend L) as [-> Hs1]. exists td1, r1. split; [f_equal; f_equal; f_equal; lia |]. split; [exact Q2 |]. split.
    + eapply follows_same; [exact Q3 | congruence | congruence | exact Hs1].
    + intros j. rewrite Hs1. apply Q4.
  - assert (Hv1 : n_value (t_store te1 leaf) = n_value (t_store te leaf)) by apply Q4.
    destruct (IH leaves leaf te1 td1 (i + 1) b2 te2 bytes r1 l Q3 Hleaf) as (td' & r' & I1 & I2 & I3 & I4); try lia; try assumption.
    rewrite Hv1 in I1. exists td', r'. split; [exact I1 |]. split; [exact I2 |]. split.
    + eapply follows_same; [exact I3 | congruence | congruence | exact Hsame].
    + intros j. rewrite Hsame, I4. apply Q4.
Qed.

Lemma segments_bounds : forall ps a len, 0 <= a -> 0 <= len -> Forall (fun p => 0 <= p_len p) ps ->
  a + Z.of_nat (List.length ps) < 2 ^ 32 -> len + lsum ps < 2 ^ 32 ->
  Forall (fun s => 1 <= fst s <= a + Z.of_nat (List.length ps) /\ 0 <= snd s <= len + lsum ps) (segments ps a len).
Proof.
  induction ps as [| p ps IH]; intros a len Ha Hlen Hp Hb Hs; [constructor |].
  inversion Hp as [| ? ? Hp0 Hp']; subst. pose proof (lsum_nonneg _ Hp') as Hnn.
  cbn [segments List.length lsum fold_right] in *. fold (lsum ps) in *.
  rewrite (u32_id (a + 1)) by lia. rewrite (u32_id (len + p_len p)) by lia.
  destruct (p_term p || _).
  - constructor; [cbn [fst snd]; lia |].
    eapply Forall_impl; [| apply (IH 0 0); try assumption; lia]. cbn beta. intros [x y]. cbn. lia.
  - eapply Forall_impl; [| apply (IH (a + 1) (len + p_len p)); try assumption; lia]. cbn beta. intros [x y]. cbn. lia.
Qed.

Lemma total_S : forall n c, total (S n) c = (total n c + l_passes (layer_of n c))%nat.
Proof.
  intros. unfold total. rewrite seq_S, map_app, list_sum_app. cbn. lia.
Qed.

Lemma total_mono : forall m n c, (m <= n)%nat -> (total m c <= total n c)%nat.
Proof. intros m n c H. induction H; [lia |]. rewrite total_S. lia. Qed.

Lemma content_S : forall n c, content (S n) c =
  content n c ++ (if (l_passes (layer_of n c) =? 0)%nat then [] else l_data (layer_of n c)).
Proof.
  intros. unfold content. rewrite seq_S, map_app, concat_app. cbn [map concat]. rewrite app_nil_r. reflexivity.
Qed.

(** ** The relation between the two sides' code-blocks *)

(** Before layer [lay]. *)
Definition brel (sty : Z) (lay : nat) (nb : Z) (c : ecblk) (d : dblk) : Prop :=
  let p := total lay c in
  e_done c = p /\ d_realsegs d = d_numsegs d /\ concat (d_chunks d) = content lay c /\
  (p = 0%nat /\ d_numsegs d = 0%nat \/
   p <> 0%nat /\ List.length (d_segs d) = d_numsegs d /\ (0 < d_numsegs d)%nat /\
   (seg_start sty (d_numsegs d - 1) < p <= seg_start sty (d_numsegs d))%nat /\
   (forall j, (j < d_numsegs d)%nat ->
      seg_at sty (e_pass c) j (Nat.min p (seg_start sty (S j))) (nth j (d_segs d) seg0)) /\
   d_lenbits d = e_lenbits c /\ 3 <= e_lenbits c <= 25 /\ d_numbps d = e_numbps c /\ d_mb d = nb).

(** Between header and body of layer [lay]. *)
Definition mid (sty : Z) (lay : nat) (nb : Z) (c : ecblk) (d : dblk) : Prop :=
  let p := total lay c in
  let n := l_passes (layer_of lay c) in
  (n = 0%nat /\ d_new d = 0 /\ brel sty lay nb c d) \/
  (n <> 0%nat /\ d_new d = Z.of_nat n /\ e_done c = p /\ concat (d_chunks d) = content lay c /\
   d_lenbits d = e_lenbits c /\ 3 <= e_lenbits c <= 25 /\ d_numbps d = e_numbps c /\ d_mb d = nb /\
   exists k pre ss, d_segs d = pre ++ ss /\ List.length pre = k /\
     (seg_start sty k <= p < seg_start sty (S k))%nat /\ pending sty (e_pass c) k p n ss /\
     (forall j, (j < k)%nat -> seg_at sty (e_pass c) j (seg_start sty (S j)) (nth j pre seg0)) /\
     (d_numsegs d = k \/ d_numsegs d = S k /\ (seg_start sty k < p)%nat)).

(** The comma code is not longer than the data. *)
Lemma src_fuel : forall bytes r k l, Src bytes r (repeat true k ++ false :: l) -> (k < 8 * List.length bytes + 1)%nat.
Proof.
  intros bytes r k l (_ & n & Hn & _). rewrite app_length, repeat_length in Hn. cbn [List.length] in Hn.
  assert (G : forall b prev, (List.length (unstuff prev b) <= 8 * List.length b)%nat).
  { clear. induction b as [| x b IH]; intros prev; cbn [unstuff List.length]; [lia |].
    rewrite app_length. specialize (IH x). destruct (prev =? 255); rewrite bits_of_length; lia. }
  specialize (G bytes 0). lia.
Qed.

Definition sb (c c' : ecblk) : Prop :=
  e_numbps c' = e_numbps c /\ e_pass c' = e_pass c /\ e_layers c' = e_layers c.

Lemma sb_total : forall c c' n, sb c c' -> total n c' = total n c.
Proof. intros c c' n (_ & _ & H). unfold total, layer_of. rewrite H. reflexivity. Qed.
Lemma sb_content : forall c c' n, sb c c' -> content n c' = content n c.
Proof. intros c c' n (_ & _ & H). unfold content, layer_of. rewrite H. reflexivity. Qed.
Lemma sb_layer : forall c c' n, sb c c' -> layer_of n c' = layer_of n c.
Proof. intros c c' n (_ & _ & H). unfold layer_of. rewrite H. reflexivity. Qed.
Lemma sb_ok : forall sty n nb c c', sb c c' -> block_ok sty n nb c -> block_ok sty n nb c'.
Proof.
  intros sty n nb c c' H Hb. pose proof H as (H1 & H2 & H3). unfold block_ok in *. rewrite H1, H2, (sb_total _ _ _ H).
  destruct Hb as (A1 & A0 & A2 & A3 & A4 & A5 & A6 & A7 & A8). repeat (split; [assumption |]).
  intros i Hi. rewrite (sb_layer _ _ _ H), (sb_total _ _ _ H). apply A8. assumption.
Qed.

Lemma block_flags : forall sty n nb c, block_ok sty n nb c -> flags_ok sty (e_pass c) /\ lens_ok (e_pass c).
Proof. intros sty n nb c (_ & _ & _ & _ & _ & H5 & H6 & H7 & _). split; [exact H5 |]. split; assumption. Qed.

(** The reader's segments for one block of the layer. *)
Lemma pick_seg : forall sty lay nb c d, brel sty lay nb c d ->
  exists k segs, (if (d_numsegs d =? 0)%nat then (0%nat, init_seg sty 0 true (d_segs d))
     else let k := (d_numsegs d - 1)%nat in
          let s := nth k (d_segs d) seg0 in
          if s_passes s =? s_max s then (S k, init_seg sty (S k) false (d_segs d)) else (k, d_segs d)) = (k, segs) /\
    List.length segs = S k /\ (seg_start sty k <= total lay c < seg_start sty (S k))%nat /\
    seg_at sty (e_pass c) k (total lay c) (nth k segs seg0) /\
    (forall j, (j < k)%nat -> seg_at sty (e_pass c) j (seg_start sty (S j)) (nth j segs seg0)) /\
    (d_numsegs d = k \/ d_numsegs d = S k /\ (seg_start sty k < total lay c)%nat).
Proof.
  intros sty lay nb c d (_ & _ & _ & [(Hp & Hn) | (Hp & Hlen & Hn & Hst & Hat & _)]).
  - exists 0%nat, (init_seg sty 0 true (d_segs d)). rewrite Hn, Hp. cbn [Nat.eqb].
    rewrite init_seg_max by (try lia; tauto). cbn [firstn app nth List.length].
    pose proof (start_step sty 0) as X. rewrite start_0 in *. repeat split; try lia.
  - replace (d_numsegs d =? 0)%nat with false by (symmetry; apply Nat.eqb_neq; lia). cbv zeta.
    set (J := d_numsegs d) in *. set (p := total lay c) in *.
    assert (EJ : S (J - 1) = J) by lia.
    pose proof (Hat (J - 1)%nat ltac:(lia)) as HJ. rewrite EJ in HJ. replace (Nat.min p (seg_start sty J)) with p in HJ by lia.
    pose proof HJ as (A1 & A2 & A3 & A4).
    pose proof (start_step sty (J - 1)) as X. rewrite EJ in X.
    assert (Hprev : forall j, (j < J - 1)%nat -> seg_at sty (e_pass c) j (seg_start sty (S j)) (nth j (d_segs d) seg0)).
    { intros j Hj. pose proof (Hat j ltac:(lia)) as Y. pose proof (start_mono sty (S j) (J - 1) ltac:(lia)).
      replace (Nat.min p (seg_start sty (S j))) with (seg_start sty (S j)) in Y by lia. exact Y. }
    rewrite A1, A3. unfold cap. rewrite EJ.
    destruct (Z.eqb_spec (Z.of_nat (p - seg_start sty (J - 1))) (Z.of_nat (seg_start sty J - seg_start sty (J - 1)))) as [E | E].
    + assert (Ep : p = seg_start sty J) by lia.
      exists J, (init_seg sty J false (d_segs d)). split; [reflexivity |].
      rewrite init_seg_max.
      2: { split; [discriminate | lia]. }
      2: { intros _. exact A3. }
      pose proof (start_step sty J). split; [rewrite app_length, firstn_length; cbn; lia |]. split; [lia |]. split.
      * rewrite app_nth2; rewrite firstn_length; [| lia]. replace (J - Nat.min J (List.length (d_segs d)))%nat with 0%nat by lia.
        cbn [nth]. unfold seg_at. cbn [s_passes s_real s_max s_len]. rewrite Ep, Nat.sub_diag. cbn. auto.
      * split; [| left; reflexivity]. intros j Hj. rewrite app_nth1 by (rewrite firstn_length; lia).
        rewrite nth_firstn_lt by lia. destruct (Nat.eq_dec j (J - 1)) as [-> | Hne]; [| apply Hprev; lia].
        rewrite EJ, <- Ep. exact HJ.
    + exists (J - 1)%nat, (d_segs d). split; [reflexivity |]. rewrite EJ. split; [lia |]. split; [lia |]. split; [exact HJ |].
      split; [exact Hprev |]. right. lia.
Qed.

Lemma block_header : forall sty lay nlay nb c d incl imsb dincl dimsb i leaves fs incl' imsb' c' bytes r tail,
  Z.land sty 64 = 0 -> block_ok sty nlay nb c -> (lay < nlay)%nat -> Z.of_nat lay < 999 -> brel sty lay nb c d ->
  (i < leaves)%nat ->
  follows leaves (Z.of_nat lay + 1) incl dincl -> follows leaves 999 imsb dimsb ->
  n_value (t_store imsb i) = nb - e_numbps c ->
  (e_done c = 0%nat -> (n_value (t_store incl i) <? Z.of_nat lay + 1) = negb (l_passes (layer_of lay c) =? 0)%nat) ->
  enc_block lay incl imsb i c = (fs, incl', imsb', c') -> Src bytes r (field_bits fs ++ tail) ->
  exists dincl' dimsb' d' r',
    dec_block (8 * List.length bytes + 1) sty lay nb dincl dimsb i d r = Some (dincl', dimsb', d', r') /\
    Src bytes r' tail /\
    follows leaves (Z.of_nat lay + 1) incl' dincl' /\ follows leaves 999 imsb' dimsb' /\
    (forall j, n_value (t_store incl' j) = n_value (t_store incl j)) /\
    (forall j, n_value (t_store imsb' j) = n_value (t_store imsb j)) /\
    mid sty lay nb c' d' /\ sb c c'.
Proof.
  intros sty lay nlay nb c d incl imsb dincl dimsb i leaves fs incl' imsb' c' bytes r tail
    Hht Hok Hlay Hlay9 Hrel Hi Hfi Hfm Hvm Hvi He Hs.
  pose proof Hrel as (Hdone & Hreal & Hchunks & Hcase).
  unfold enc_block in He. unfold dec_block.
  assert (Hsegs0 : (d_numsegs d =? 0)%nat = (e_done c =? 0)%nat).
  { rewrite Hdone. destruct Hcase as [(H1 & H2) | (H1 & _ & H2 & _)]; [rewrite H1, H2; reflexivity |].
    symmetry. etransitivity; [| symmetry; apply Nat.eqb_neq; lia]. apply Nat.eqb_neq. exact H1. }
  rewrite (i32_id (Z.of_nat lay + 1)) in * by (unfold in_i32; lia).
  (* the inclusion information *)
  destruct (if (e_done c =? 0)%nat then let '(bs, t) := tgt_encode incl i (Z.of_nat lay + 1) in (bit_fields bs, t)
            else ([(if (l_passes (layer_of lay c) =? 0)%nat then 0 else 1, 1)], incl)) as [f0 incl1] eqn:E0.
  assert (Hinc : forall l, Src bytes r (field_bits f0 ++ l) ->
    exists dincl1 r1, (if (d_numsegs d =? 0)%nat then tgt_decode dincl i (Z.of_nat lay + 1) r
        else let '(b, r) := read1 r in (b, dincl, r)) = (negb (l_passes (layer_of lay c) =? 0)%nat, dincl1, r1) /\
      Src bytes r1 l /\ follows leaves (Z.of_nat lay + 1) incl1 dincl1 /\
      (forall j, n_value (t_store incl1 j) = n_value (t_store incl j))).
  { intros l Hl. rewrite Hsegs0. destruct (e_done c =? 0)%nat eqn:Ed.
    - destruct (tgt_encode incl i (Z.of_nat lay + 1)) as [bs t] eqn:Et. injection E0 as <- <-.
      rewrite bit_fields_bits in Hl.
      assert (Hl9 : Z.of_nat lay + 1 <= 999) by lia.
      destruct (query_sync _ _ _ _ _ _ _ _ _ _ _ Hfi Hi Hl9 Et Hl) as (td & r1 & Q1 & Q2 & Q3 & Q4).
      exists td, r1. rewrite Q1. rewrite Hvi by (apply Nat.eqb_eq; exact Ed). rewrite Z.max_id in Q3. auto.
    - injection E0 as <- <-. rewrite field_bits_cons in Hl. exists dincl.
      destruct (read1_src bytes r (negb (l_passes (layer_of lay c) =? 0)%nat) l) as (r1 & R1 & R2).
      { destruct (l_passes (layer_of lay c) =? 0)%nat; exact Hl. }
      exists r1. rewrite R1. auto. }
  destruct (l_passes (layer_of lay c) =? 0)%nat eqn:En.
  { injection He as <- <- <- <-. destruct (Hinc _ Hs) as (dincl1 & r1 & -> & R2 & R3 & R4).
    cbn [negb]. exists dincl1, dimsb. eexists. exists r1. split; [reflexivity |]. split; [exact R2 |]. split; [exact R3 |].
    split; [exact Hfm |]. split; [exact R4 |]. split; [reflexivity |]. split; [| split; [reflexivity | split; reflexivity]].
    left. apply Nat.eqb_eq in En. split; [exact En |]. split; [reflexivity |].
    unfold brel. cbn [d_realsegs d_numsegs d_chunks d_segs d_lenbits d_numbps d_mb]. auto. }
  set (n := l_passes (layer_of lay c)) in *.
  pose proof Hok as (B1 & B0 & B2 & B3 & B4 & B5 & B6 & B7 & B8). destruct (B8 lay Hlay) as (B9 & B10 & B11 & B12). fold n in B9, B12.
  assert (Hn : (1 <= n <= 164)%nat) by (apply Nat.eqb_neq in En; lia).
  specialize (B12 ltac:(lia)).
  assert (Hpn : (total lay c + n <= List.length (e_pass c))%nat).
  { pose proof (total_mono (S lay) nlay c ltac:(lia)) as X. rewrite total_S in X. fold n in X. lia. }
  assert (Hnn : 0 <= e_numbps c).
  { apply B0. pose proof (total_mono (S lay) nlay c ltac:(lia)) as X. rewrite total_S in X. fold n in X. lia. }
  destruct (block_flags _ _ _ _ Hok) as [Hflags Hlens].
  (* zero bit-planes *)
  destruct (if (e_done c =? 0)%nat then let '(bs, t) := tgt_encode imsb i 999 in (bit_fields bs, t, 3)
            else ([], imsb, e_lenbits c)) as [[f1 imsb1] lenbits] eqn:E1.
  assert (Hms : forall r l, Src bytes r (field_bits f1 ++ l) ->
    exists dimsb1 r1, (if (d_numsegs d =? 0)%nat then
        match find_imsb 1001 dimsb i 0 r with
        | None => None
        | Some (v, imsb, r) => Some (imsb, r, u32 (nb + 1 - v), u32 nb, 3)
        end
      else Some (dimsb, r, d_numbps d, d_mb d, d_lenbits d)) = Some (dimsb1, r1, e_numbps c, nb, lenbits) /\
      Src bytes r1 l /\ follows leaves 999 imsb1 dimsb1 /\
      (forall j, n_value (t_store imsb1 j) = n_value (t_store imsb j)) /\ 3 <= lenbits <= 25).
  { intros r0 l Hl. rewrite Hsegs0. destruct (e_done c =? 0)%nat eqn:Ed.
    - destruct (tgt_encode imsb i 999) as [bs t] eqn:Et. injection E1 as <- <- <-.
      rewrite bit_fields_bits in Hl.
      destruct (find_imsb_src 1001 leaves i imsb dimsb 0 bs t bytes r0 l) as (td & r1 & Q1 & Q2 & Q3 & Q4);
        try assumption; try lia.
      rewrite Q1, Hvm. exists td, r1. split; [| split; [exact Q2 |]; split; [exact Q3 |]; split; [exact Q4 | lia]].
      rewrite !u32_id by lia. f_equal. f_equal. f_equal. f_equal. lia.
    - injection E1 as <- <- <-. exists dimsb, r0.
      destruct Hcase as [(H1 & _) | (_ & _ & _ & _ & _ & H1 & H2 & H3 & H4)].
      { apply Nat.eqb_neq in Ed. lia. }
      rewrite H1, H3, H4. auto. }
  set (ps := firstn n (skipn (e_done c) (e_pass c))) in *.
  injection He as <- <- <- <-. rewrite !field_bits_app, <- !app_assoc in Hs.
  destruct (Hinc _ Hs) as (dincl1 & r1 & -> & R2 & R3 & R4). cbn [negb].
  destruct (Hms _ _ R2) as (dimsb1 & r2 & -> & M2 & M3 & M4 & Hlb).
  destruct (get_numpasses_src (Z.of_nat n) bytes r2 _ ltac:(lia) M2) as (r3 & -> & N2).
  assert (Hpslen : List.length ps = n) by (unfold ps; rewrite firstn_length, skipn_length; lia).
  assert (Hps : lens_ok ps) by (apply lens_firstn, lens_skipn; exact Hlens).
  assert (Hbounds : seg_bounds (segments ps 0 0)).
  { destruct Hps as [X1 X2]. eapply Forall_impl; [| apply segments_bounds; try assumption; try lia].
    assert (B13 : Z.of_nat (List.length (l_data (layer_of lay c))) = lsum ps) by (unfold ps; rewrite Hdone; exact B12).
    intros [x y]. cbn [fst snd]. lia. }
  pose proof (increment_spec _ _ Hbounds Hlb) as Hinc2. cbv zeta in Hinc2. set (inc := increment lenbits (segments ps 0 0)) in *.
  destruct Hinc2 as (I1 & I2 & I3).
  rewrite commacode_bits, <- app_assoc in N2. cbn [app] in N2.
  destruct (get_commacode_src (Z.to_nat inc) (8 * List.length bytes + 1) 0 bytes r3 _ (src_fuel _ _ _ _ N2) N2) as (r4 & -> & C2).
  rewrite Z.add_0_l, Z2Nat.id by lia. rewrite (u32_id (lenbits + inc)) in * by lia.
  destruct (pick_seg _ _ _ _ _ Hrel) as (k & segs & KE & K1 & K2 & K3 & K4 & K5).
  cbv zeta in KE |- *. rewrite KE.
  rewrite (i32_id (Z.of_nat n)) by (unfold in_i32; lia). rewrite Nat2Z.id.
  unfold ps in C2, I3. rewrite Hdone in C2, I3.
  destruct (dec_segs_src n (S n) sty (e_pass c) k (total lay c) segs (lenbits + inc) bytes r4 tail) as (ss & r5 & D1 & D2 & D3);
    try assumption; try lia.
  rewrite D1. exists dincl1, dimsb1. eexists. exists r5. split; [reflexivity |]. split; [exact D2 |]. split; [exact R3 |].
  split; [exact M3 |]. split; [exact R4 |]. split; [exact M4 |]. split; [| split; [reflexivity | split; reflexivity]].
  right. cbn [d_new d_chunks d_lenbits d_numbps d_mb d_segs d_numsegs e_lenbits e_done e_pass e_numbps].
  unfold total, content, layer_of. cbn [e_layers]. fold (layer_of lay c). fold n.
  change (list_sum (map (fun i0 : nat => l_passes (nth i0 (e_layers c) (mkLayer 0 []))) (seq 0 lay))) with (total lay c).
  split; [lia |]. split; [reflexivity |]. split; [exact Hdone |]. split; [exact Hchunks |]. split; [reflexivity |].
  split; [lia |]. split; [reflexivity |]. split; [reflexivity |].
  exists k, (firstn k segs), ss. split; [reflexivity |]. split; [rewrite firstn_length; lia |]. split; [exact K2 |]. split; [exact D3 |].
  split; [| exact K5]. intros j Hj. rewrite nth_firstn_lt by lia. apply K4. exact Hj.
Qed.

(** The body of one block. *)
Lemma block_body : forall sty lay nlay nb c d rest, block_ok sty nlay nb c -> (lay < nlay)%nat -> mid sty lay nb c d ->
  let n := l_passes (layer_of lay c) in
  exists d', read_block d ((if (n =? 0)%nat then [] else l_data (layer_of lay c)) ++ rest) = Some (d', rest) /\
    brel sty (S lay) nb (if (n =? 0)%nat then c else mkE (e_numbps c) (e_pass c) (e_layers c) (e_done c + n) (e_lenbits c)) d'.
Proof.
  intros sty lay nlay nb c d rest Hok Hlay Hmid n. unfold read_block.
  destruct Hmid as [(Hn & Hnew & Hrel) | (Hn & Hnew & Hdone & Hch & Hlb & Hlb2 & Hbp & Hmb & k & pre & ss & Hsegs & Hpre & Hk & Hpend & Hat & Hks)];
    fold n in Hn.
  - rewrite Hnew. cbn [Z.eqb]. rewrite Hn. cbn [Nat.eqb app]. exists d. split; [reflexivity |].
    destruct Hrel as (R1 & R2 & R3 & R4). unfold brel. rewrite total_S, content_S. fold n. rewrite Hn, Nat.add_0_r. cbn [Nat.eqb].
    rewrite app_nil_r. auto.
  - fold n in Hnew, Hpend. replace (d_new d =? 0) with false by (symmetry; apply Z.eqb_neq; lia).
    replace (n =? 0)%nat with false by (symmetry; apply Nat.eqb_neq; exact Hn).
    pose proof Hok as (B1 & B0 & B2 & B3 & B4 & B5 & B6 & B7 & B8). destruct (B8 lay Hlay) as (B9 & B10 & B11 & B12). fold n in B9, B12.
    specialize (B12 Hn). destruct (block_flags _ _ _ _ Hok) as [Hflags Hlens].
    assert (Hpn : (total lay c + n <= List.length (e_pass c))%nat).
    { pose proof (total_mono (S lay) nlay c ltac:(lia)) as X. rewrite total_S in X. fold n in X. lia. }
    match goal with |- context [read_segs _ ?K d _] => assert (EK : K = k) end.
    { destruct Hks as [Hks | (Hks & Hlt)]; rewrite Hks.
      - destruct (Nat.eqb_spec k 0) as [-> | Hk0]; [reflexivity |]. rewrite Hsegs, app_nth1 by lia.
        destruct (Hat (k - 1)%nat ltac:(lia)) as (A1 & _ & A3 & _). rewrite A1, A3. unfold cap. rewrite Z.eqb_refl. reflexivity.
      - cbn [Nat.eqb]. replace (S k - 1)%nat with k by lia. rewrite Hsegs, app_nth2 by lia. rewrite Hpre, Nat.sub_diag.
        destruct ss as [| s ss]; [cbn in Hpend; lia |]. cbn [pending] in Hpend. destruct Hpend as (_ & (A1 & _ & A3 & _) & _).
        cbn [nth]. rewrite A1, A3. unfold cap.
        replace (_ =? _) with false by (symmetry; apply Z.eqb_neq; lia). reflexivity. }
    rewrite EK. rewrite Hnew, Nat2Z.id.
    destruct (read_segs_ok ss n (S n) sty (e_pass c) k (total lay c) d pre (l_data (layer_of lay c)) rest)
      as (d' & q & ss' & cs & R1 & R2 & R3 & R4 & R5 & R6 & R7 & R8 & R9 & R10 & R11 & R12); try assumption; try lia.
    rewrite R1. eexists. split; [reflexivity |].
    set (c' := mkE _ _ _ _ _). assert (Hsb : sb c c') by (split; [reflexivity | split; reflexivity]).
    unfold brel. cbn [d_realsegs d_numsegs d_chunks d_segs d_lenbits d_numbps d_mb]. rewrite (sb_total _ _ _ Hsb), (sb_content _ _ _ Hsb).
    rewrite total_S, content_S. fold n. replace (n =? 0)%nat with false by (symmetry; apply Nat.eqb_neq; exact Hn).
    split; [unfold c'; cbn [e_done]; lia |]. split; [reflexivity |]. split.
    { rewrite R8, concat_app, R9, Hch. reflexivity. }
    right. split; [lia |]. rewrite R2, R3, R4. split; [reflexivity |]. split; [lia |]. split; [exact R5 |]. split.
    + intros j Hj. unfold c'. cbn [e_pass]. destruct (Nat.lt_ge_cases j k) as [L | L].
      * rewrite app_nth1 by lia. pose proof (start_mono sty (S j) k ltac:(lia)).
        replace (Nat.min (total lay c + n) (seg_start sty (S j))) with (seg_start sty (S j)) by lia. apply Hat. exact L.
      * rewrite app_nth2 by lia. rewrite Hpre. apply R7. lia.
    + unfold c'. cbn [e_lenbits e_numbps]. rewrite R10, R11, R12. auto.
Qed.
