(** Proofs about tag trees: the decoder follows the encoder. *)

From Coq Require Import ZArith List Bool Arith Lia ZifyNat.
From Verif Require Import BioModel BioSpec BioStream TgtModel TgtSpec TgtProofs.
Import ListNotations.
Local Open Scope Z_scope.

Ltac spl := repeat match goal with |- _ /\ _ => split end; try reflexivity.

Lemma upd_same : forall s i x, upd s i x i = x.
Proof. intros. unfold upd. rewrite Nat.eqb_refl. reflexivity. Qed.
Lemma upd_other : forall s i x j, j <> i -> upd s i x j = s j.
Proof. intros s i x j H. unfold upd. apply Nat.eqb_neq in H. rewrite H. reflexivity. Qed.

(** ** One node *)

Definition node_sync (e d : tnode) : Prop :=
  0 <= n_low e <= n_value e /\ n_value e <= 999 /\ n_low d = n_low e /\
  (if n_known e then n_value d = n_value e /\ n_low e = n_value e else n_value d = 999).

Lemma loop_sync : forall k value low (known : bool) vd t bs low' (known' : bool) bytes r l,
  low <= value <= 999 -> (if known then vd = value /\ low = value else vd = 999) ->
  k = Z.to_nat (t - low) -> t <= 999 ->
  enc_loop k value low known = (bs, low', known') -> Src bytes r (bs ++ l) ->
  exists vd' r', dec_loop k vd low r = (vd', low', r') /\ Src bytes r' l /\
    low <= low' <= value /\ low' <= Z.max low t /\
    (if known' then vd' = value /\ low' = value else vd' = 999) /\
    (vd' <? t) = (value <? t) /\ (known' = false -> low' = Z.max low t) /\ (value < t -> known' = true).
Proof.
  induction k; intros value low known vd t bs low' known' bytes r l Hv Hk Ek Ht He Hs.
  - cbn in He. injection He as <- <- <-. exists vd, r. cbn [dec_loop].
    spl; try lia; try assumption.
    destruct known; [destruct Hk as [-> _]; reflexivity |]. subst vd.
    transitivity false; [apply Z.ltb_ge; lia | symmetry; apply Z.ltb_ge; lia].
  - cbn [enc_loop] in He. destruct (Z.leb_spec value low) as [L | L].
    + assert (low = value) by lia. subst low. injection He as <- <- <-. cbn [dec_loop].
      destruct known.
      * destruct Hk as [-> _]. rewrite Z.ltb_irrefl. exists value, r. cbn [app] in Hs.
        spl; try lia; try assumption; try discriminate.
      * subst vd. replace (value <? 999) with true by (symmetry; apply Z.ltb_lt; lia).
        destruct (read1_src _ _ _ _ Hs) as (r' & E & Hs'). rewrite E. exists value, r'.
        spl; try lia; try assumption; try discriminate.
    + destruct (enc_loop k value (low + 1) known) as [[bs1 low1] known1] eqn:E1. injection He as <- <- <-.
      destruct known; [destruct Hk as [_ Hk]; lia |]. subst vd.
      cbn [dec_loop]. replace (low <? 999) with true by (symmetry; apply Z.ltb_lt; lia).
      cbn [app] in Hs. destruct (read1_src _ _ _ _ Hs) as (r1 & E & Hs1). rewrite E.
      destruct (IHk value (low + 1) false 999 t bs1 low1 known1 bytes r1 l) as (vd' & r' & D & D1 & D2 & D3 & D4 & D5 & D6 & D7);
        try lia; try assumption; try reflexivity.
      exists vd', r'. rewrite D. spl; try assumption; try lia.
Qed.

(** ** A path *)

Definition sync (se sd : store) : Prop := forall i, node_sync (se i) (sd i).
Definition mono (par : nat -> option nat) (s : store) : Prop :=
  forall i p, par i = Some p -> n_value (s p) <= n_value (s i).
Definition lows (s : store) (m : Z) : Prop := forall i, n_low (s i) <= m.

(** [q] is a path below the node [prev], root side first. *)
Fixpoint path_from (par : nat -> option nat) (prev : option nat) (q : list nat) : Prop :=
  match q with
  | [] => True
  | i :: q => par i = prev /\ path_from par (Some i) q
  end.

Lemma path_sync : forall par q prev se sd low t bs se' bytes r l m,
  path_from par prev q -> sync se sd -> mono par se -> lows se m -> low <= Z.max m t -> t <= 999 ->
  (match prev with None => low = 0 | Some p => low <= n_value (se p) end) -> 0 <= low ->
  enc_path se low t q = (bs, se') -> Src bytes r (bs ++ l) ->
  exists sd' r', dec_path sd low t q r = (sd', r') /\ Src bytes r' l /\ sync se' sd' /\
    lows se' (Z.max m t) /\ (forall i, n_value (se' i) = n_value (se i)) /\
    (forall leaf, q <> [] -> last q leaf = leaf -> (n_value (sd' leaf) <? t) = (n_value (se leaf) <? t)).
Proof.
  induction q as [| i q IH]; intros prev se sd low t bs se' bytes r l m Hq Hs Hm Hl Hlow Ht Hprev Hpos He Hr.
  - cbn in He. injection He as <- <-. exists sd, r. cbn [dec_path].
    spl; try assumption; try (apply Hs).
    + intros i. specialize (Hl i). lia.
    + intros leaf X. contradiction.
  - cbn [path_from] in Hq. destruct Hq as [Hpar Hq]. cbn [enc_path dec_path] in *.
    pose proof (Hs i) as (Hn1 & Hn2 & Hn3 & Hn4). rewrite Hn3.
    set (low1 := Z.max low (n_low (se i))) in *.
    assert (Hlow1 : low1 <= n_value (se i)).
    { destruct prev as [p |]; [specialize (Hm i p Hpar) |]; lia. }
    destruct (enc_loop (Z.to_nat (t - low1)) (n_value (se i)) low1 (n_known (se i))) as [[bs1 low2] kn2] eqn:E1.
    destruct (enc_path (upd se i (mkT (n_value (se i)) low2 kn2)) low2 t q) as [bs2 se2] eqn:E2.
    injection He as <- <-. rewrite <- app_assoc in Hr.
    assert (Hkn : if n_known (se i) then n_value (sd i) = n_value (se i) /\ low1 = n_value (se i) else n_value (sd i) = 999).
    { destruct (n_known (se i)); [| exact Hn4]. destruct Hn4 as [A B]. split; [exact A | lia]. }
    destruct (loop_sync _ _ _ _ _ t _ _ _ bytes r (bs2 ++ l) (conj Hlow1 Hn2) Hkn eq_refl Ht E1 Hr)
      as (vd' & r1 & D & D1 & D2 & D3 & D4 & D5 & _).
    rewrite D. set (se1 := upd se i _) in *. set (sd1 := upd sd i _).
    assert (Hv1 : forall j, n_value (se1 j) = n_value (se j)).
    { intros j. unfold se1, upd. destruct (Nat.eqb_spec j i); [subst j |]; reflexivity. }
    assert (Hs1 : sync se1 sd1).
    { intros j. unfold se1, sd1, upd. destruct (Nat.eqb_spec j i) as [-> | Hj]; [| apply Hs].
      unfold node_sync. cbn [n_value n_low n_known]. spl; try lia. destruct kn2; assumption. }
    assert (Hl1 : lows se1 (Z.max m t)).
    { intros j. unfold se1, upd. destruct (Nat.eqb_spec j i) as [-> | Hj]; cbn [n_low]; [specialize (Hl i) | specialize (Hl j)]; lia. }
    destruct (IH (Some i) se1 sd1 low2 t bs2 se2 bytes r1 l (Z.max m t)) as (sd' & r' & F & F1 & F2 & F3 & F4 & F5);
      try assumption.
    + intros j p Hp. rewrite !Hv1. apply Hm. exact Hp.
    + specialize (Hl1 i). unfold se1 in Hl1. rewrite upd_same in Hl1. cbn [n_low] in Hl1. lia.
    + rewrite Hv1. lia.
    + lia.
    + exists sd', r'. split; [exact F |]. split; [exact F1 |]. split; [exact F2 |].
      rewrite Z.max_id in F3 || replace (Z.max (Z.max m t) t) with (Z.max m t) in F3 by lia.
      split; [exact F3 |]. split; [intros j; rewrite F4; apply Hv1 |].
      intros leaf _ Hlast. destruct q as [| i2 q2].
      * cbn in Hlast. subst leaf. cbn in F. injection F as <- _. unfold sd1. rewrite upd_same. exact D5.
      * rewrite F5; [rewrite Hv1; reflexivity | discriminate | exact Hlast].
Qed.

(** ** The path of a leaf *)

Lemma path_from_app : forall par a prev i, path_from par prev (a ++ [i]) <->
  path_from par prev a /\ par i = match rev a with [] => prev | x :: _ => Some x end.
Proof.
  induction a as [| x a IH]; intros prev i; cbn [app path_from rev].
  - tauto.
  - rewrite IH. destruct (rev a) eqn:E; cbn; tauto.
Qed.

Lemma ancestors_path : forall par leaves n fuel i, shaped par leaves n -> (n - i <= fuel)%nat -> (i < n)%nat ->
  path_from par None (rev (ancestors fuel par i)) /\ exists a, ancestors fuel par i = i :: a.
Proof.
  intros par leaves n. induction fuel; intros i Hs Hf Hi; [lia |]. cbn [ancestors]. split; [| eauto].
  cbn [rev]. apply path_from_app. destruct (par i) as [p |] eqn:E.
  - pose proof (Hs i p E). destruct (IHfuel p Hs) as [I1 [a I2]]; [lia | lia |].
    split; [exact I1 |]. rewrite rev_involutive, I2. reflexivity.
  - cbn. auto.
Qed.

Definition tree_ok (t : tree) (leaves : nat) : Prop :=
  shaped (parent t) leaves (t_nodes t) /\ (leaves <= t_nodes t)%nat.

Lemma last_default : forall {A} (l : list A) (x d : A), last (l ++ [x]) d = x.
Proof. intros. apply last_last. Qed.

Lemma tgt_path_ok : forall t leaves leaf, tree_ok t leaves -> (leaf < leaves)%nat ->
  path_from (parent t) None (tgt_path t leaf) /\ tgt_path t leaf <> [] /\ last (tgt_path t leaf) leaf = leaf.
Proof.
  intros t leaves leaf [Hs Hn] Hl. unfold tgt_path.
  destruct (ancestors_path _ _ _ (t_nodes t) leaf Hs) as [P [a E]]; [lia | lia |].
  split; [exact P |]. rewrite E. cbn [rev]. split; [destruct (rev a); discriminate |]. apply last_default.
Qed.

(** ** One query *)

(** The relation kept between the encoder's and the decoder's tree. *)
Definition follows (leaves : nat) (m : Z) (te td : tree) : Prop :=
  tree_ok te leaves /\ t_parents td = t_parents te /\ t_nodes td = t_nodes te /\
  sync (t_store te) (t_store td) /\ mono (parent te) (t_store te) /\ lows (t_store te) m /\ 0 <= m.

Lemma query_sync : forall leaves m te td leaf t bs te' bytes r l,
  follows leaves m te td -> (leaf < leaves)%nat -> t <= 999 ->
  tgt_encode te leaf t = (bs, te') -> Src bytes r (bs ++ l) ->
  exists td' r', tgt_decode td leaf t r = (n_value (t_store te leaf) <? t, td', r') /\ Src bytes r' l /\
    follows leaves (Z.max m t) te' td' /\
    (forall i, n_value (t_store te' i) = n_value (t_store te i)).
Proof.
  intros leaves m te td leaf t bs te' bytes r l (Hok & Hp & Hn & Hs & Hm & Hl & Hm0) Hleaf Ht He Hr.
  destruct (tgt_path_ok _ _ _ Hok Hleaf) as (P1 & P2 & P3).
  unfold tgt_encode in He. destruct (enc_path (t_store te) 0 t (tgt_path te leaf)) as [bs1 se'] eqn:E.
  injection He as <- <-.
  destruct (path_sync (parent te) (tgt_path te leaf) None (t_store te) (t_store td) 0 t bs1 se' bytes r l m)
    as (sd' & r' & D & D1 & D2 & D3 & D4 & D5); try assumption; try lia.
  assert (Htd : tgt_path td leaf = tgt_path te leaf).
  { unfold tgt_path, parent. rewrite Hp, Hn. reflexivity. }
  exists (mkTree (t_parents td) (t_nodes td) sd'), r'. unfold tgt_decode. rewrite Htd, D.
  rewrite (D5 leaf P2 P3). split; [reflexivity |]. split; [exact D1 |]. split; [| exact D4].
  unfold follows, tree_ok, parent in *. cbn [t_parents t_nodes t_store]. spl; try tauto; try (apply D2); try assumption.
  - intros i p Hip. rewrite !D4. apply Hm. exact Hip.
  - lia.
Qed.

(** ** Setting values *)

Lemma setvalue_spec : forall par leaves n fuel s i v, shaped par leaves n -> (n - i <= fuel)%nat -> (i < n)%nat ->
  (forall j p, par j = Some p -> p <> i -> n_value (s p) <= n_value (s j)) ->
  (forall j, par j = Some i -> Z.min (n_value (s i)) v <= n_value (s j)) ->
  let s' := setvalue_loop fuel par s i v in
  mono par s' /\ n_value (s' i) = Z.min (n_value (s i)) v /\
  (forall j, (j < leaves)%nat -> j <> i -> s' j = s j) /\
  (forall j, n_low (s' j) = n_low (s j) /\ n_known (s' j) = n_known (s j) /\
     (n_value (s' j) = n_value (s j) \/ n_value (s' j) = v /\ v < n_value (s j))).
Proof.
  intros par leaves n. induction fuel; intros s i v Hs Hf Hi H1 H2 s'; [lia |].
  subst s'. cbn [setvalue_loop]. destruct (Z.ltb_spec v (n_value (s i))) as [L | L].
  - set (s1 := upd s i (mkT v (n_low (s i)) (n_known (s i)))).
    assert (Hs1 : forall j, n_low (s1 j) = n_low (s j) /\ n_known (s1 j) = n_known (s j)).
    { intros j. unfold s1, upd. destruct (Nat.eqb_spec j i) as [-> | ?]; auto. }
    assert (Hi1 : n_value (s1 i) = v) by (unfold s1; rewrite upd_same; reflexivity).
    assert (Ho : forall j, j <> i -> s1 j = s j) by (intros; apply upd_other; assumption).
    destruct (par i) as [p |] eqn:Ep.
    + pose proof (Hs i p Ep) as [Hp1 Hp2].
      destruct (IHfuel s1 p v Hs) as (I1 & I2 & I3 & I4); [lia | lia | | |].
      * intros j p' Hj Hne. destruct (Nat.eq_dec p' i) as [-> | Hpi].
        -- assert (j <> i) by (pose proof (Hs j i Hj); lia). rewrite Hi1, Ho by assumption.
           specialize (H2 j Hj). lia.
        -- assert (j <> i) by (intros ->; congruence). rewrite !Ho by assumption. apply H1; assumption.
      * intros j Hj. destruct (Nat.eq_dec j i) as [-> | Hji]; [rewrite Hi1; lia |].
        rewrite !Ho by lia. assert (n_value (s p) <= n_value (s j)) by (apply H1; [assumption | lia]). lia.
      * cbn zeta in I1, I2, I3, I4. set (s' := setvalue_loop fuel par s1 p v) in *.
        split; [exact I1 |]. split.
        { destruct (I4 i) as (_ & _ & [X | [X _]]); rewrite X; [rewrite Hi1 |]; lia. }
        split.
        { intros j Hj Hji. rewrite I3 by lia. apply Ho. assumption. }
        intros j. destruct (I4 j) as (A & B & C). destruct (Hs1 j) as [A1 B1].
        split; [congruence |]. split; [congruence |].
        destruct (Nat.eq_dec j i) as [-> | Hji].
        { right. rewrite Hi1 in C. destruct C as [C | [C _]]; split; lia || assumption. }
        rewrite Ho in C by assumption. exact C.
    + split; [| split; [| split]].
      * intros j p Hj. destruct (Nat.eq_dec p i) as [-> | Hpi].
        -- assert (j <> i) by (intros ->; congruence). rewrite Hi1, Ho by assumption. specialize (H2 j Hj). lia.
        -- assert (j <> i) by (intros ->; congruence). rewrite !Ho by assumption. apply H1; assumption.
      * rewrite Hi1. lia.
      * intros j _ Hji. apply Ho. assumption.
      * intros j. destruct (Hs1 j) as [A1 B1]. split; [exact A1 |]. split; [exact B1 |].
        destruct (Nat.eq_dec j i) as [-> | Hji]; [right; lia | left; rewrite Ho by assumption; reflexivity].
  - split; [| split; [| split]].
    + intros j p Hj. destruct (Nat.eq_dec p i) as [-> | Hpi]; [specialize (H2 j Hj); lia | apply H1; assumption].
    + lia.
    + reflexivity.
    + intros j. auto.
Qed.

Lemma set_sync : forall leaves m te td leaf v, follows leaves m te td -> (leaf < leaves)%nat -> 0 <= v -> m <= v ->
  let te' := tgt_setvalue te leaf v in
  follows leaves m te' td /\
  n_value (t_store te' leaf) = Z.min (n_value (t_store te leaf)) v /\
  (forall j, (j < leaves)%nat -> j <> leaf -> n_value (t_store te' j) = n_value (t_store te j)).
Proof.
  intros leaves m te td leaf v ((Hsh & Hle) & Hp & Hn & Hs & Hm & Hl & Hm0) Hleaf Hv Hmv te'.
  destruct (setvalue_spec (parent te) leaves (t_nodes te) (t_nodes te) (t_store te) leaf v Hsh) as (I1 & I2 & I3 & I4);
    [lia | lia | | |].
  - intros j p Hj _. apply Hm. exact Hj.
  - intros j Hj. specialize (Hm j leaf Hj). lia.
  - unfold te', tgt_setvalue. cbn [t_store]. cbn zeta in I1, I2, I3, I4.
    set (s' := setvalue_loop _ _ _ _ _) in *.
    split; [| split; [exact I2 |]].
    + unfold follows, tree_ok, parent in *. cbn [t_parents t_nodes t_store]. spl; try assumption.
      * intros i. destruct (I4 i) as (A & B & C). destruct (Hs i) as (S1 & S2 & S3 & S4). specialize (Hl i).
        unfold node_sync. rewrite A, B. spl; try lia.
        destruct (n_known (t_store te i)); [| exact S4]. destruct S4 as [X Y].
        destruct C as [C | [C C']]; [rewrite C; split; assumption | lia].
      * intros i. destruct (I4 i) as (A & _). rewrite A. apply Hl.
    + intros j Hj Hne. rewrite I3 by assumption. reflexivity.
Qed.

(** ** Histories *)

Lemma leaf_value_app : forall leaf a b v, leaf_value leaf (a ++ b) v = leaf_value leaf b (leaf_value leaf a v).
Proof. induction a as [| [i x | i t] a IH]; intros; cbn; auto. Qed.

Lemma run_sync : forall leaves l m before te td bs te' bytes r rest,
  follows leaves m te td -> fair leaves m l ->
  (forall i, (i < leaves)%nat -> n_value (t_store te i) = leaf_value i before 999) ->
  enc_run te l = (bs, te') -> Src bytes r (bs ++ rest) ->
  exists td' r', dec_run td r l = (answers before l, td', r') /\ Src bytes r' rest.
Proof.
  intros leaves. induction l as [| [i v | i t] l IH]; intros m before te td bs te' bytes r rest Hf Hfair Hv He Hr.
  - cbn in He. injection He as <- <-. exists td, r. cbn. auto.
  - cbn [fair] in Hfair. destruct Hfair as (Hi & Hv0 & Hmv & Hfair). cbn [enc_run dec_run answers] in *.
    destruct (set_sync _ _ _ _ _ _ Hf Hi Hv0 Hmv) as (F & F1 & F2).
    eapply IH; try eassumption. intros j Hj. rewrite leaf_value_app. cbn [leaf_value].
    destruct (Nat.eqb_spec i j) as [-> | Hne]; [rewrite F1, Hv by assumption; reflexivity |].
    rewrite F2 by auto. apply Hv. assumption.
  - cbn [fair] in Hfair. destruct Hfair as (Hi & Ht & Hfair). cbn [enc_run dec_run answers] in *.
    destruct (tgt_encode te i t) as [bs1 te1] eqn:E1. destruct (enc_run te1 l) as [bs2 te2] eqn:E2.
    injection He as <- <-. rewrite <- app_assoc in Hr.
    destruct (query_sync _ _ _ _ _ _ _ _ _ _ _ Hf Hi Ht E1 Hr) as (td1 & r1 & D & D1 & D2 & D3).
    rewrite D. destruct (IH (Z.max m t) (before ++ [TQuery i t]) te1 td1 bs2 te2 bytes r1 rest)
      as (td' & r' & G & G1); try assumption.
    { intros j Hj. rewrite leaf_value_app. cbn [leaf_value]. rewrite D3. apply Hv. assumption. }
    rewrite G. exists td', r'. split; [| exact G1]. rewrite Hv by assumption. reflexivity.
Qed.

Lemma blank_follows : forall w h t m, tgt_create w h = Some t -> 0 <= m -> follows (w * h) m t t.
Proof.
  intros w h t m H Hm. destruct (create_spec _ _ _ H) as (Hw & Hh & Hb & n & Hn & _ & _ & _ & _ & HN).
  unfold follows, tree_ok. rewrite Hb. spl; try assumption.
  - apply create_shaped. exact H.
  - rewrite HN. assert (B : base 1 w h = (w * h)%nat) by (cbn; lia). rewrite <- B. apply base_mono. lia.
  - intros i. unfold node_sync, blank. cbn [n_value n_low n_known]. lia.
  - intros i p _. cbn. lia.
  - intros i. cbn. lia.
Qed.

(** ** One query with a high threshold against many with increasing ones *)

(** Equality of stores, node by node. *)
Definition same (a b : store) : Prop := forall i, a i = b i.

Lemma same_upd : forall a b i x, same a b -> same (upd a i x) (upd b i x).
Proof. intros a b i x H j. unfold upd. destruct (j =? i)%nat; [reflexivity | apply H]. Qed.

Lemma enc_path_same : forall q a b low t, same a b ->
  fst (enc_path a low t q) = fst (enc_path b low t q) /\ same (snd (enc_path a low t q)) (snd (enc_path b low t q)).
Proof.
  induction q as [| i q IH]; intros a b low t H; [cbn; auto |]. cbn [enc_path]. rewrite (H i).
  destruct (enc_loop _ _ _ _) as [[bs low1] kn].
  specialize (IH (upd a i (mkT (n_value (b i)) low1 kn)) (upd b i (mkT (n_value (b i)) low1 kn)) low1 t (same_upd _ _ _ _ H)).
  destruct (enc_path (upd a _ _) _ _ _), (enc_path (upd b _ _) _ _ _). cbn [fst snd] in *.
  destruct IH as [-> IH]. auto.
Qed.

(** The loop at one node, in closed form. *)
Lemma enc_loop_spec : forall k value low known, low <= value ->
  enc_loop k value low known =
    if value <? low + Z.of_nat k then (repeat false (Z.to_nat (value - low)) ++ (if known then [] else [true]), value, true)
    else (repeat false k, low + Z.of_nat k, known).
Proof.
  induction k; intros value low known H; cbn [enc_loop].
  - replace (value <? low + Z.of_nat 0) with false by (symmetry; apply Z.ltb_ge; lia).
    cbn. rewrite Z.add_0_r. reflexivity.
  - destruct (Z.leb_spec value low) as [L | L].
    + assert (low = value) by lia. subst low.
      replace (value <? value + Z.of_nat (S k)) with true by (symmetry; apply Z.ltb_lt; lia).
      rewrite Z.sub_diag. reflexivity.
    + rewrite IHk by lia.
      replace (low + 1 + Z.of_nat k) with (low + Z.of_nat (S k)) by lia.
      destruct (value <? low + Z.of_nat (S k)).
      * replace (Z.to_nat (value - low)) with (S (Z.to_nat (value - (low + 1)))) by lia. reflexivity.
      * reflexivity.
Qed.

(** Invariant of the stores an encoder goes through. *)
Definition enc_ok (par : nat -> option nat) (s : store) : Prop :=
  mono par s /\ forall i, n_low (s i) <= n_value (s i) /\ (n_known (s i) = true -> n_low (s i) = n_value (s i)).

Lemma enc_path_upd : forall q s low t i x, ~ In i q ->
  fst (enc_path (upd s i x) low t q) = fst (enc_path s low t q) /\
  same (snd (enc_path (upd s i x) low t q)) (upd (snd (enc_path s low t q)) i x).
Proof.
  induction q as [| j q IH]; intros s low t i x Hi; [cbn; split; [reflexivity | intros k; reflexivity] |].
  cbn [enc_path]. assert (j <> i) by (intros ->; apply Hi; left; reflexivity).
  rewrite (upd_other s i x j) by assumption.
  destruct (enc_loop _ _ _ _) as [[bs low1] kn].
  set (nd := mkT (n_value (s j)) low1 kn).
  assert (Hc : same (upd (upd s i x) j nd) (upd (upd s j nd) i x)).
  { intros k. unfold upd. destruct (Nat.eqb_spec k j), (Nat.eqb_spec k i); try reflexivity. congruence. }
  destruct (enc_path_same q _ _ low1 t Hc) as [E1 E2].
  destruct (IH (upd s j nd) low1 t i x) as [F1 F2]; [intros X; apply Hi; right; exact X |].
  destruct (enc_path (upd (upd s i x) j nd) low1 t q) as [p1 p2].
  destruct (enc_path (upd (upd s j nd) i x) low1 t q) as [p3 p4].
  destruct (enc_path (upd s j nd) low1 t q) as [p5 p6]. cbn [fst snd] in *.
  split; [congruence |]. intros k. rewrite E2. apply F2.
Qed.

Lemma enc_path_notin : forall q s low t i, ~ In i q -> snd (enc_path s low t q) i = s i.
Proof.
  induction q as [| j q IH]; intros s low t i Hi; [reflexivity |]. cbn [enc_path].
  destruct (enc_loop _ _ _ _) as [[bs low1] kn]. specialize (IH (upd s j (mkT (n_value (s j)) low1 kn)) low1 t i).
  destruct (enc_path _ low1 t q) as [a b]. cbn [snd] in *. rewrite IH by (intros X; apply Hi; right; exact X).
  apply upd_other. intros ->. apply Hi. left. reflexivity.
Qed.

Definition node_ok (nd : tnode) : Prop :=
  n_low nd <= n_value nd /\ (n_known nd = true -> n_low nd = n_value nd).

(** Result of the loop for threshold [t], starting from [low] <= value. *)
Lemma enc_node : forall value low known t, low <= value ->
  enc_loop (Z.to_nat (t - low)) value low known =
    if value <? t then (repeat false (Z.to_nat (value - low)) ++ (if known then [] else [true]), value, true)
    else (repeat false (Z.to_nat (t - low)), Z.max low t, known).
Proof.
  intros. rewrite enc_loop_spec by assumption.
  destruct (Z.ltb_spec value t).
  - replace (value <? low + Z.of_nat (Z.to_nat (t - low))) with true by (symmetry; apply Z.ltb_lt; lia). reflexivity.
  - replace (value <? low + Z.of_nat (Z.to_nat (t - low))) with false by (symmetry; apply Z.ltb_ge; lia).
    f_equal. f_equal. lia.
Qed.

Lemma enc_path_split : forall par q prev s a c t1 T,
  path_from par prev q -> NoDup q -> mono par s -> (forall i, node_ok (s i)) -> t1 <= T ->
  a <= c -> (match prev with None => c <= 0 | Some p => c <= n_value (s p) end) ->
  (forall i, 0 <= n_value (s i)) -> (a = c \/ t1 <= a) ->
  let '(b1, s1) := enc_path s a t1 q in
  let '(b2, s2) := enc_path s1 c T q in
  let '(b, s') := enc_path s c T q in
  b1 ++ b2 = b /\ same s2 s' /\ (t1 <= a -> b1 = []).
Proof.
  intros par. induction q as [| i q IH]; intros prev s a c t1 T Hq Hnd Hm Hok HT Hac Hprev Hpos Hcase.
  { cbn. repeat split; reflexivity. }
  cbn [path_from] in Hq. destruct Hq as [Hpar Hq]. inversion Hnd as [| ? ? Hni Hnd']; subst.
  cbn [enc_path].
  set (v := n_value (s i)). set (kn := n_known (s i)). set (lo := n_low (s i)).
  destruct (Hok i) as [Hlo Hkn]. fold v lo kn in Hlo, Hkn.
  assert (Hcv : c <= v).
  { destruct (par i) as [p |] eqn:Hpar; [specialize (Hm i p Hpar); fold v in Hm | specialize (Hpos i); fold v in Hpos]; lia. }
  rewrite (enc_node v (Z.max a lo) kn t1) by lia. rewrite (enc_node v (Z.max c lo) kn T) by lia.
  (* the state left at node i by the first pass *)
  set (R1 := if v <? t1 then _ else _). set (RT := if v <? T then _ else _).
  destruct R1 as [[n1 lo1] kn1] eqn:E1. destruct RT as [[nT loT] knT] eqn:ET. subst R1 RT.
  destruct (enc_path (upd s i (mkT v lo1 kn1)) lo1 t1 q) as [t1b s1] eqn:P1.
  assert (Hs1i : s1 i = mkT v lo1 kn1).
  { pose proof (enc_path_notin q (upd s i (mkT v lo1 kn1)) lo1 t1 i Hni) as X. rewrite P1 in X. cbn [snd] in X.
    rewrite X, upd_same. reflexivity. }
  rewrite Hs1i. cbn [n_value n_low n_known].
  assert (Hlo1 : lo1 <= v /\ Z.max a lo <= lo1 /\ (kn1 = true -> lo1 = v)).
  { destruct (Z.ltb_spec v t1); injection E1 as <- <- <-; (split; [lia | split; [lia |]]); intros; [reflexivity |].
    specialize (Hkn H0). lia. }
  rewrite (enc_node v (Z.max c lo1) kn1 T) by lia.
  assert (HloT : loT <= v /\ Z.max c lo <= loT).
  { destruct (Z.ltb_spec v T); injection ET as <- <- <-; lia. }
  assert (Key : exists n2, (if v <? T then (repeat false (Z.to_nat (v - Z.max c lo1)) ++ (if kn1 then [] else [true]), v, true)
      else (repeat false (Z.to_nat (T - Z.max c lo1)), Z.max (Z.max c lo1) T, kn1)) = (n2, loT, knT) /\
      n1 ++ n2 = nT /\ (t1 <= a -> n1 = []) /\ (lo1 = loT /\ n2 = [] \/ t1 <= lo1) /\ lo1 <= loT).
  { destruct (Z.ltb_spec v t1) as [L1 | L1].
    - (* value reached below t1: both passes end at the value *)
      injection E1 as <- <- <-.
      destruct (Z.ltb_spec v T) as [LT | LT]; [| lia]. injection ET as <- <- <-.
      destruct Hcase as [Hcase | Hcase]; [subst c | lia].
      replace (Z.max a v) with v by lia. rewrite Z.sub_diag. cbn [Z.to_nat repeat app].
      exists []. spl.
      + rewrite app_nil_r. reflexivity.
      + intros. lia.
      + left. auto.
    - injection E1 as <- <- <-.
      destruct Hcase as [Hcase | Hcase].
      + subst c. replace (Z.max a (Z.max (Z.max a lo) t1)) with (Z.max (Z.max a lo) t1) by lia.
        destruct (Z.ltb_spec v T) as [LT | LT]; injection ET as <- <- <-; eexists.
        * split; [reflexivity |]. split; [| split; [| split]].
          -- rewrite app_assoc. f_equal. rewrite <- repeat_app. f_equal. lia.
          -- intros. replace (Z.to_nat (t1 - Z.max a lo)) with 0%nat by lia. reflexivity.
          -- right. lia.
          -- lia.
        * split; [f_equal; f_equal; lia |]. split; [| split; [| split]].
          -- rewrite <- repeat_app. f_equal. lia.
          -- intros. replace (Z.to_nat (t1 - Z.max a lo)) with 0%nat by lia. reflexivity.
          -- right. lia.
          -- lia.
      + replace (Z.to_nat (t1 - Z.max a lo)) with 0%nat by lia. cbn [repeat].
        replace (Z.max c (Z.max (Z.max a lo) t1)) with (Z.max c lo) by lia.
        exists nT. split; [exact ET |]. split; [reflexivity |]. split; [reflexivity |]. split; [right; lia |].
        lia. }
  destruct Key as (n2 & -> & Hn & Hn0 & Hcase' & Hle).
  (* the tails *)
  set (sT := upd s i (mkT v loT knT)).
  assert (HmT : mono par sT).
  { intros j p Hj. unfold sT, upd. specialize (Hm j p Hj).
    destruct (Nat.eqb_spec p i) as [-> |], (Nat.eqb_spec j i) as [-> |]; cbn [n_value]; assumption. }
  specialize (IH (Some i) s lo1 loT t1 T Hq Hnd' Hm Hok HT).
  destruct (enc_path s lo1 t1 q) as [b1 s1'] eqn:Q1.
  destruct (enc_path s1' loT T q) as [b2 s2'] eqn:Q2.
  destruct (enc_path s loT T q) as [b s'] eqn:Q3.
  destruct IH as (I1 & I2 & I3); [assumption | fold v; lia | assumption | destruct Hcase' as [[-> _] | ?]; auto |].
  destruct (enc_path_upd q s lo1 t1 i (mkT v lo1 kn1) Hni) as [U1 U2]. rewrite P1, Q1 in U1, U2. cbn [fst snd] in U1, U2.
  destruct (enc_path_upd q s loT T i (mkT v loT knT) Hni) as [V1 V2]. rewrite Q3 in V1, V2. cbn [fst snd] in V1, V2.
  assert (W : same (upd s1 i (mkT v loT knT)) (upd s1' i (mkT v loT knT))).
  { intros j. unfold upd. destruct (Nat.eqb_spec j i); [reflexivity |]. rewrite U2, upd_other by assumption. reflexivity. }
  destruct (enc_path_same q _ _ loT T W) as [W1 W2].
  destruct (enc_path_upd q s1' loT T i (mkT v loT knT) Hni) as [X1 X2]. rewrite Q2 in X1, X2. cbn [fst snd] in X1, X2.
  destruct (enc_path (upd s1 i (mkT v loT knT)) loT T q) as [b2x s2x].
  fold sT in V1, V2. destruct (enc_path sT loT T q) as [bx sx]. cbn [fst snd] in *.
  assert (Htail : t1b ++ b2x = bx) by congruence.
  split; [| split].
  - destruct Hcase' as [[_ ->] | Hge].
    + rewrite app_nil_r in Hn. subst nT. cbn [app]. rewrite <- app_assoc, Htail. reflexivity.
    + rewrite I3 in I1, U1 by assumption. subst t1b. cbn [app] in Htail.
      rewrite app_nil_r, <- Hn, <- app_assoc, Htail. reflexivity.
  - intros j. rewrite W2, X2, V2. unfold upd. destruct (j =? i)%nat; [reflexivity | apply I2].
  - intros Ht. rewrite Hn0 by assumption. rewrite U1, I3 by lia. reflexivity.
Qed.

Lemma enc_path_above : forall par q prev s c t T,
  path_from par prev q -> mono par s -> (forall i, n_low (s i) <= n_value (s i)) ->
  (match prev with None => c <= 0 | Some p => c <= n_value (s p) end) -> (forall i, 0 <= n_value (s i)) ->
  (forall i, In i q -> n_value (s i) < t) -> t <= T ->
  enc_path s c t q = enc_path s c T q.
Proof.
  intros par. induction q as [| i q IH]; intros prev s c t T Hq Hm Hlow Hprev Hpos Hv HT; [reflexivity |].
  cbn [path_from] in Hq. destruct Hq as [Hpar Hq]. cbn [enc_path].
  assert (Hc : c <= n_value (s i)).
  { subst prev. destruct (par i) as [p |] eqn:Hp; [specialize (Hm i p Hp) | specialize (Hpos i)]; lia. }
  pose proof (Hlow i) as Hl. pose proof (Hv i (or_introl eq_refl)) as Hvi.
  rewrite !enc_node by lia.
  replace (n_value (s i) <? t) with true by (symmetry; apply Z.ltb_lt; lia).
  replace (n_value (s i) <? T) with true by (symmetry; apply Z.ltb_lt; lia).
  set (s1 := upd s i _).
  assert (Hs1 : forall j, n_value (s1 j) = n_value (s j)).
  { intros j. unfold s1, upd. destruct (Nat.eqb_spec j i); [subst j |]; reflexivity. }
  rewrite (IH (Some i) s1 (n_value (s i)) t T); try assumption; [reflexivity | | | | |].
  - intros j p Hj. rewrite !Hs1. apply Hm. exact Hj.
  - intros j. unfold s1, upd. destruct (Nat.eqb_spec j i); cbn [n_low n_value]; [lia | apply Hlow].
  - rewrite Hs1. lia.
  - intros j. rewrite Hs1. apply Hpos.
  - intros j Hj. rewrite Hs1. apply Hv. right. exact Hj.
Qed.

Lemma path_values : forall par s q prev leaf, path_from par prev q -> mono par s -> q <> [] -> last q leaf = leaf ->
  forall i, In i q -> n_value (s i) <= n_value (s leaf).
Proof.
  intros par s. induction q as [| x q IH]; intros prev leaf Hq Hm Hne Hlast i Hi; [contradiction |].
  cbn [path_from] in Hq. destruct Hq as [_ Hq]. destruct q as [| y q].
  - cbn in Hlast. subst leaf. destruct Hi as [-> | []]. lia.
  - assert (Hyq : forall j, In j (y :: q) -> n_value (s j) <= n_value (s leaf)).
    { apply (IH (Some x)); [assumption | assumption | discriminate | exact Hlast]. }
    destruct Hi as [-> | Hi]; [| apply Hyq; assumption].
    cbn [path_from] in Hq. destruct Hq as [Hy _]. specialize (Hm y i Hy). specialize (Hyq y (or_introl eq_refl)). lia.
Qed.

Lemma ancestors_nodup : forall par leaves n fuel i, shaped par leaves n ->
  NoDup (ancestors fuel par i) /\ forall j, In j (ancestors fuel par i) -> (i <= j)%nat.
Proof.
  intros par leaves n. induction fuel; intros i Hs; [cbn; split; [constructor | contradiction] |].
  cbn [ancestors]. destruct (par i) as [p |] eqn:Ep.
  - destruct (IHfuel p Hs) as [I1 I2]. destruct (Hs i p Ep). split.
    + constructor; [| exact I1]. intros X. specialize (I2 i X). lia.
    + intros j [-> | Hj]; [lia | specialize (I2 j Hj); lia].
  - split; [constructor; [intros [] | constructor] |]. intros j [-> | []]. lia.
Qed.

Lemma follows_same : forall leaves m te te' td, follows leaves m te td ->
  t_parents te' = t_parents te -> t_nodes te' = t_nodes te -> same (t_store te') (t_store te) -> follows leaves m te' td.
Proof.
  intros leaves m te te' td (Hok & Hp & Hn & Hs & Hm & Hl & Hm0) E1 E2 E3.
  unfold follows, tree_ok, parent in *. rewrite E1, E2. spl; try tauto; try assumption.
  - intros i. rewrite E3. apply Hs.
  - intros i p Hp'. rewrite !E3. apply Hm. exact Hp'.
  - intros i. rewrite E3. apply Hl.
Qed.

(** A query with threshold [t] followed by one with [T >= t] puts the same bits
    as the second alone; and nothing more after [t] if the value is below [t]. *)
Lemma encode_split : forall leaves m te td leaf t T, follows leaves m te td -> (leaf < leaves)%nat -> t <= T ->
  let '(b1, te1) := tgt_encode te leaf t in
  let '(b2, te2) := tgt_encode te1 leaf T in
  let '(b, te') := tgt_encode te leaf T in
  b = b1 ++ b2 /\ same (t_store te') (t_store te2) /\
  (n_value (t_store te leaf) < t -> b2 = [] /\ same (t_store te') (t_store te1)).
Proof.
  intros leaves m te td leaf t T (Hok & Hp & Hn & Hs & Hm & Hl & Hm0) Hleaf HT.
  destruct (tgt_path_ok _ _ _ Hok Hleaf) as (P1 & P2 & P3).
  assert (Hnd : NoDup (tgt_path te leaf)).
  { unfold tgt_path. apply NoDup_rev. apply (ancestors_nodup _ leaves (t_nodes te)). apply Hok. }
  assert (Hnode : forall i, node_ok (t_store te i)).
  { intros i. destruct (Hs i) as (S1 & S2 & S3 & S4). split; [lia |]. intros X. rewrite X in S4. tauto. }
  assert (Hpos : forall i, 0 <= n_value (t_store te i)) by (intros i; destruct (Hs i) as (S1 & _); lia).
  pose proof (enc_path_split (parent te) (tgt_path te leaf) None (t_store te) 0 0 t T P1 Hnd Hm Hnode HT
    ltac:(lia) ltac:(cbn; lia) Hpos (or_introl eq_refl)) as S.
  assert (Habove : n_value (t_store te leaf) < t ->
    enc_path (t_store te) 0 t (tgt_path te leaf) = enc_path (t_store te) 0 T (tgt_path te leaf)).
  { intros Hv. apply (enc_path_above (parent te) _ None); try assumption; [intros i; apply Hnode | cbn; lia |].
    intros i Hi. pose proof (path_values _ _ _ _ _ P1 Hm P2 P3 i Hi). lia. }
  unfold tgt_encode. destruct (enc_path (t_store te) 0 t (tgt_path te leaf)) as [b1 s1] eqn:E1.
  unfold tgt_path at 1, parent at 1. cbn [t_parents t_nodes t_store].
  change (rev (ancestors (t_nodes te) (fun i : nat => nth_error (t_parents te) i) leaf)) with (tgt_path te leaf).
  destruct (enc_path s1 0 T (tgt_path te leaf)) as [b2 s2] eqn:E2.
  destruct (enc_path (t_store te) 0 T (tgt_path te leaf)) as [b s'] eqn:E3. cbn [t_store].
  destruct S as (S1 & S2 & _). split; [congruence |]. split; [intros i; symmetry; apply S2 |].
  intros Hv. specialize (Habove Hv). injection Habove as -> ->.
  split; [| intros i; reflexivity]. apply (app_inv_head b). rewrite S1, app_nil_r. reflexivity.
Qed.
