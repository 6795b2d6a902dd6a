(** Coding passes through the MQ and raw coders: several passes may share a
    segment, with the contexts reset between them. *)

From Coq Require Import ZArith List Lia Bool.
From Verif Require Import BioSpec BioProofs Ints Mem MqModel MqProofs MqSync MqEnd MqProps RawProofs RawProps T1Model T1Dec.
Import ListNotations.
Local Open Scope Z_scope.

(** ** What a decoder reads *)

Definition forget (reset : bool) (q : mqd) : mqd := if reset then dset_ctxs q reset_ctxs else q.
(** The passes [outs] one after the other. *)
Fixpoint runs (raw reset : bool) (outs : list (list sym)) (q q' : mqd) : Prop :=
  match outs with
  | [] => q' = q
  | o :: outs => exists q1, feeds raw o q q1 /\ runs raw reset outs (forget (reset && negb raw) q1) q'
  end.
Lemma runs_app : forall raw reset o o' q q', runs raw reset (o ++ o') q q' <-> exists q1, runs raw reset o q q1 /\ runs raw reset o' q1 q'.
Proof.
  intros raw reset o. induction o as [| l o IH]; intros o' q q'; cbn [app runs].
  - split; [intros H; exists q; auto | intros (q1 & -> & H); exact H].
  - split.
    + intros (q1 & E & H). apply IH in H. destruct H as (q2 & H1 & H2). exists q2. split; [exists q1; auto | exact H2].
    + intros (q2 & (q1 & E & H1) & H2). exists q1. split; [exact E |]. apply IH. exists q2. auto.
Qed.

(** ** MQ passes *)

Definition wipe (reset : bool) (s : mqc) : mqc := if reset then set_ctxs s reset_ctxs else s.
Definition code_outs (start : Z) (reset : bool) (outs : list (list sym)) (s : mqc) : mqc :=
  fold_left (fun s o => wipe reset (code_mq start o s)) outs s.

Lemma reset_valid : valid_ctxs reset_ctxs.
Proof.
  intros k. unfold reset_ctxs, setstate, upd.
  destruct (k =? 0); [cbn; lia |]. destruct (k =? 17); [cbn; lia |]. destruct (k =? 18); cbn; lia.
Qed.

Lemma wipe_inv : forall start reset s, Inv start (2 ^ 15) (2 ^ 16) s -> Inv start (2 ^ 15) (2 ^ 16) (wipe reset s).
Proof. intros start reset s I. unfold wipe. destruct reset; [| exact I]. destruct I. constructor; try assumption. apply reset_valid. Qed.
Lemma wipe_claim : forall B reset s, Claim B (wipe reset s) -> Claim B s.
Proof. intros B reset s C. unfold wipe in C. destruct reset; [| exact C]. destruct C. constructor; assumption. Qed.

Lemma outs_inv : forall start reset outs s, Inv start (2 ^ 15) (2 ^ 16) s ->
  Inv start (2 ^ 15) (2 ^ 16) (code_outs start reset outs s) /\ forall B, Claim B (code_outs start reset outs s) -> Claim B s.
Proof.
  intros start reset outs. induction outs as [| o outs IH]; intros s I; [split; [exact I | auto] |]. cbn [code_outs fold_left].
  destruct (encode_all_inv start o s I) as [I1 C1]. destruct (IH _ (wipe_inv start reset _ I1)) as [I2 C2]. split; [exact I2 |].
  intros B C. apply C1. apply (wipe_claim B reset). apply C2, C.
Qed.

Lemma decode_feeds : forall o q q', decode_all (map fst o) q = Some (map snd o, q') -> feeds false o q q'.
Proof.
  induction o as [| [cx b] o IH]; intros q q' E; cbn [map decode_all feeds next fst snd] in *; [congruence |].
  destruct (decode cx q) as [[b1 q1] |]; [| discriminate]. destruct (decode_all (map fst o) q1) as [[bs q2] |] eqn:E1; [| discriminate].
  assert (b1 = b) by congruence. assert (bs = map snd o) by congruence. assert (q2 = q') by congruence. subst. exists q1. split; [reflexivity | apply IH, E1].
Qed.

Lemma outs_sync : forall B off seg e m bk start reset outs s d, Data B off seg e m -> Inv start (2 ^ 15) (2 ^ 16) s -> Rel B off seg e m bk s d ->
  Forall bits outs -> Claim B (code_outs start reset outs s) ->
  exists d', runs false reset outs d d' /\ Rel B off seg e m bk (code_outs start reset outs s) d'.
Proof.
  intros B off seg e m bk start reset outs. induction outs as [| o outs IH]; intros s d HD I Re Hl Cl; [exists d; split; [reflexivity | exact Re] |].
  cbn [code_outs fold_left runs] in *. inversion Hl as [| o' outs' H1 H2]; subst o' outs'.
  destruct (encode_all_inv start o s I) as [I1 C1]. destruct (outs_inv start reset outs _ (wipe_inv start reset _ I1)) as [I2 C2].
  destruct (all_sync B off seg e m bk start o s d HD I Re H1 (wipe_claim B reset _ (C2 B Cl))) as (d1 & E1 & R1).
  assert (R1' : Rel B off seg e m bk (wipe reset (code_mq start o s)) (forget (reset && negb false) d1)).
  { unfold wipe, forget. destruct reset; [| exact R1]. cbn [andb negb]. destruct R1 as [a1 a2 a3 a4 a5 a6].
    constructor; try assumption. reflexivity. }
  destruct (IH _ _ HD (wipe_inv start reset _ I1) R1' H2 Cl) as (d2 & E2 & R2).
  exists d2. split; [| exact R2]. exists d1. split; [apply decode_feeds, E1 | exact E2].
Qed.

(** [segment] of MqProps for any run of the encoder. *)
Lemma segment_gen : forall (Q : mqd -> mqd -> Prop) start s sE s', Fresh start s -> Inv start (2 ^ 15) (2 ^ 16) sE -> (forall B, Claim B sE -> Claim B s) ->
  (forall B off seg e m bk d, Data B off seg e m -> Rel B off seg e m bk s d -> Claim B sE -> exists d', Q d d' /\ Rel B off seg e m bk sE d') ->
  Ended start sE s' ->
  Ready start s' /\ bp s + 1 <= bp s' /\ (forall i, i < bp s + 1 -> buf s' i = buf s i) /\ ctxs s' = ctxs sE /\
  forall m pos, copied (buf s') m (bp s + 1) pos (bp s' - (bp s + 1)) ->
    exists d, Q (init_dec m pos (bp s' - (bp s + 1)) (ctxs s)) d /\ dctxs d = ctxs s' /\ (forall i, finish_dec d i = m i).
Proof.
  intros Q start s sE s' F I1 C1 HQ [EC Eby Ecl Ela Ebp Ectx Eok]. pose proof (fr_inv _ _ F) as I.
  set (B := fun i => if i <? bp s' then buf s' i else 255).
  assert (B1 : forall i, i < bp s' -> B i = buf s' i) by (intros i Hi; unfold B; destruct (Z.ltb_spec i (bp s')); [reflexivity | lia]).
  assert (B2 : forall i, bp s' <= i -> B i = 255) by (intros i Hi; unfold B; destruct (Z.ltb_spec i (bp s')); [lia | reflexivity]).
  pose proof (EC B B1 B2) as Cl1. pose proof (C1 B Cl1) as Cl0. pose proof (fresh_claim B start s F Cl0) as EB.
  pose proof (fr_cur _ _ F) as Hcur. assert (Hs : start - 1 <= bp s) by (destruct I; assumption).
  assert (Hle : bp s + 1 <= bp s').
  { destruct (Z_lt_ge_dec (bp s) (bp s')) as [L | G]; [lia |]. rewrite B2 in EB by lia. congruence. }
  assert (Fr : forall i, i < bp s + 1 -> buf s' i = buf s i).
  { intros i Hi. rewrite <- B1 by lia. destruct (Z.eq_dec i (bp s)) as [-> | Hne]; [exact EB |]. destruct Cl0 as [_ P _ _]. apply P. lia. }
  assert (Lst : buf s' (bp s' - 1) <> 255).
  { destruct (Z_lt_ge_dec start (bp s')) as [L | G]; [apply Ela, L |]. assert (E : bp s' - 1 = bp s) by lia. rewrite E, Fr by lia. exact Hcur. }
  split; [| split; [exact Hle |]; split; [exact Fr |]; split; [exact Ectx |]].
  - constructor; try assumption.
    + unfold valid_ctxs. rewrite Ectx. destruct I1; assumption.
    + lia.
    + split; [exact Ecl | intros _; exact Lst].
  - intros m pos Hm. set (len := bp s' - (bp s + 1)) in *. set (seg := bp s + 1) in *.
    assert (HD : Data B (pos - seg) seg (seg + len) (with_marker m (pos + len))).
    { assert (Ee : seg + len = bp s') by (unfold len; lia). constructor.
      - intros i Hi1 Hi2. unfold with_marker. destruct (Z_lt_ge_dec i (bp s')) as [L | G].
        + rewrite !upd_other by lia. rewrite B1 by lia. replace (i + (pos - seg)) with (pos + (i - seg)) by lia. rewrite Hm by lia. f_equal. lia.
        + rewrite B2 by lia. destruct (Z.eq_dec i (bp s')) as [E | E].
          * rewrite upd_other by lia. replace (i + (pos - seg)) with (pos + len) by lia. apply upd_same.
          * replace (i + (pos - seg)) with (pos + len + 1) by lia. apply upd_same.
      - intros i Hi. apply B2. lia.
      - intros i Hi1 Hi2 E. rewrite B1 in E by lia. destruct (Z.eq_dec (i + 1) (bp s')) as [E1 | E1].
        + exfalso. apply Lst. replace (bp s' - 1) with i by lia. exact E.
        + rewrite B1 by lia. apply Ecl; [unfold seg in Hi1; lia | lia | exact E].
      - intros i. unfold B. destruct (i <? bp s'); [apply Eby | lia].
      - unfold len. lia. }
    pose proof (init_sync B start s m pos len F Cl0 ltac:(unfold len; lia) HD) as Re. cbn zeta in Re. fold seg in Re.
    destruct (HQ _ _ _ _ _ _ _ HD Re Cl1) as (d & Ed & Rd).
    exists d. split; [exact Ed |]. split; [rewrite (r_x _ _ _ _ _ _ _ _ Rd); symmetry; exact Ectx |].
    destruct (r_m _ _ _ _ _ _ _ _ Rd) as (M1 & M2 & M3). intros i. unfold finish_dec. rewrite M1, M2, M3. cbn [fst snd].
    replace (seg + len + (pos - seg)) with (pos + len) by lia. unfold with_marker, upd.
    destruct (Z.eqb_spec i (pos + len + 1)) as [-> | N1]; [reflexivity |]. destruct (Z.eqb_spec i (pos + len)) as [-> | N2]; reflexivity.
Qed.

Definition close_mq (start : Z) (pterm : bool) (s : mqc) : mqc := if pterm then erterm_enc start s else flush start s.

(** What is in the bytes [from, to) of [b], given and giving context states. *)
Definition read_ok (reset raw : bool) (outs : list (list sym)) (b : mem) (from to : Z) (cx cx' : mem) : Prop :=
  forall m pos, copied b m from pos (to - from) ->
    exists d, runs raw reset outs (if raw then raw_init_dec m pos (to - from) cx else init_dec m pos (to - from) cx) d /\
              dctxs d = cx' /\ (forall i, finish_dec d i = m i).

Lemma mq_segment : forall start pterm reset acc o s, Fresh start s -> Forall bits acc -> bits o ->
  let s' := wipe reset (close_mq start pterm (code_mq start o (code_outs start reset acc s))) in
  Ready start s' /\ bp s + 1 <= bp s' /\ (forall i, i < bp s + 1 -> buf s' i = buf s i) /\ (reset = true -> ctxs s' = reset_ctxs) /\
  read_ok reset false (acc ++ [o]) (buf s') (bp s + 1) (bp s') (ctxs s) (ctxs s').
Proof.
  intros start pterm reset acc o s F Ha Ho. cbv zeta. set (sE := code_mq start o (code_outs start reset acc s)).
  destruct (outs_inv start reset acc s (fr_inv _ _ F)) as [I1 C1]. destruct (encode_all_inv start o _ I1) as [I2 C2].
  assert (HE : Ended start sE (close_mq start pterm sE)).
  { unfold close_mq. destruct pterm; [apply erterm_end; exact I2 | apply (proj1 (flush_end _ _ I2))]. }
  destruct (segment_gen (fun d d' => exists d1, runs false reset acc d d1 /\ feeds false o d1 d') start s sE (close_mq start pterm sE) F I2 (fun B C => C1 B (C2 B C)))
    as (G1 & G2 & G3 & G4 & G5); [| exact HE |].
  1: { intros B off seg e m bk d HD Re Cl.
    destruct (outs_sync B off seg e m bk start reset acc s d HD (fr_inv _ _ F) Re Ha (C2 B Cl)) as (d1 & E1 & R1).
    destruct (all_sync B off seg e m bk start o _ d1 HD I1 R1 Ho Cl) as (d2 & E2 & R2).
    exists d2. split; [exists d1; split; [exact E1 | apply decode_feeds, E2] | exact R2]. }
  set (s' := close_mq start pterm sE) in *.
  assert (Eb : buf (wipe reset s') = buf s' /\ bp (wipe reset s') = bp s') by (unfold wipe; destruct reset; split; reflexivity).
  destruct Eb as [Eb1 Eb2]. split; [unfold wipe; destruct reset; [apply c21_reset, G1 | exact G1] |].
  rewrite Eb1, Eb2. split; [exact G2 |]. split; [exact G3 |]. split; [intros ->; reflexivity |].
  intros m pos Hm. destruct (G5 m pos Hm) as (d & (d1 & D1 & D2) & D3 & D4). exists (forget reset d). split.
  - apply runs_app. exists d1. split; [exact D1 |]. cbn [runs]. exists d. split; [exact D2 |]. rewrite andb_true_r. reflexivity.
  - unfold forget, wipe. destruct reset; [split; [reflexivity | exact D4] | split; [exact D3 | exact D4]].
Qed.

(** ** Raw passes *)

Lemma raw_feeds : forall o q q', raw_decode_all (length o) q = (map snd o, q') -> feeds true o q q'.
Proof.
  induction o as [| [cx b] o IH]; intros q q' E; cbn [map length raw_decode_all feeds next snd] in *; [congruence |].
  destruct (raw_decode q) as [b1 q1]. destruct (raw_decode_all (length o) q1) as [bs q2] eqn:E1.
  assert (b1 = b) by congruence. assert (bs = map snd o) by congruence. assert (q2 = q') by congruence. subst. exists q1. split; [reflexivity | apply IH, E1].
Qed.

Definition raw_bits (o : list sym) : list bool := map (fun p => negb (snd p =? 0)) o.
Lemma raw_bits_back : forall o, bits o -> map Z.b2z (raw_bits o) = map snd o.
Proof.
  intros o H. unfold raw_bits. rewrite map_map. apply map_ext_in. intros p I. specialize (H p I). destruct (Z.eqb_spec (snd p) 0); cbn [negb Z.b2z]; lia.
Qed.
Lemma code_raw_all : forall o s, bits o -> code_raw o s = bypass_all (raw_bits o) s.
Proof.
  unfold code_raw, bypass_all. induction o as [| p o IH]; intros s H; cbn [fold_left raw_bits map]; [reflexivity |].
  specialize (IH (bypass_enc (snd p) s) ltac:(intros q I; apply H; right; exact I)). unfold raw_bits in IH. rewrite IH.
  pose proof (H p (or_introl eq_refl)). replace (Z.b2z (negb (snd p =? 0))) with (snd p); [reflexivity |].
  destruct (Z.eqb_spec (snd p) 0); cbn [negb Z.b2z]; lia.
Qed.
Lemma bypass_app : forall l l' s, bypass_all (l ++ l') s = bypass_all l' (bypass_all l s).
Proof. intros. unfold bypass_all. apply fold_left_app. Qed.

Lemma raw_runs : forall reset outs q q', feeds true (concat outs) q q' -> runs true reset outs q q'.
Proof.
  intros reset outs. induction outs as [| o outs IH]; intros q q' H; cbn [concat runs] in *; [exact H |].
  apply feeds_app in H. destruct H as (q1 & H1 & H2). exists q1. split; [exact H1 |]. rewrite andb_false_r. apply IH, H2.
Qed.

Lemma bypass_ctxs : forall l s, ctxs (bypass_all l s) = ctxs s.
Proof.
  unfold bypass_all. induction l as [| b l IH]; intros s; cbn [fold_left]; [reflexivity |]. rewrite IH. unfold bypass_enc, put_raw.
  match goal with |- context [if ?b then _ else _] => destruct b end; reflexivity.
Qed.
Lemma wipe_same : forall reset s, (reset = true -> ctxs s = reset_ctxs) -> wipe reset s = s.
Proof. intros reset s H. unfold wipe. destruct reset; [| reflexivity]. unfold set_ctxs. rewrite <- (H eq_refl). destruct s. reflexivity. Qed.

Definition raw_outs (reset : bool) (outs : list (list sym)) (s : mqc) : mqc := fold_left (fun s o => wipe reset (code_raw o s)) outs s.
Lemma raw_outs_all : forall reset outs s, (reset = true -> ctxs s = reset_ctxs) -> Forall bits outs ->
  raw_outs reset outs s = bypass_all (raw_bits (concat outs)) s.
Proof.
  intros reset outs. unfold raw_outs. induction outs as [| o outs IH]; intros s Hc H; cbn [fold_left concat]; [reflexivity |].
  inversion H as [| o' outs' H1 H2]; subst o' outs'. rewrite code_raw_all by exact H1.
  assert (Ec : reset = true -> ctxs (bypass_all (raw_bits o) s) = reset_ctxs) by (intros Er; rewrite bypass_ctxs; apply Hc, Er).
  rewrite (wipe_same _ _ Ec). rewrite IH by assumption. unfold raw_bits. rewrite map_app, bypass_app. reflexivity.
Qed.

Lemma bits_concat : forall outs, Forall bits outs -> bits (concat outs).
Proof. intros outs H p I. apply in_concat in I. destruct I as (o & Io & Ip). exact (proj1 (Forall_forall _ _) H o Io p Ip). Qed.

Lemma raw_segment : forall start pterm reset acc o s, Ready start s -> (reset = true -> ctxs s = reset_ctxs) -> Forall bits acc -> bits o ->
  let s' := wipe reset (bypass_flush_enc pterm (code_raw o (raw_outs reset acc (bypass_init_enc start s)))) in
  Ready start s' /\ bp s <= bp s' /\ (forall i, i < bp s -> buf s' i = buf s i) /\ ctxs s' = ctxs s /\
  read_ok reset true (acc ++ [o]) (buf s') (bp s) (bp s') (ctxs s) (ctxs s').
Proof.
  intros start pterm reset acc o s Hr Hc Ha Ho. cbv zeta.
  assert (Ei : ctxs (bypass_init_enc start s) = ctxs s) by reflexivity.
  rewrite raw_outs_all by (rewrite ?Ei; assumption). rewrite code_raw_all by exact Ho. rewrite <- bypass_app.
  replace (raw_bits (concat acc) ++ raw_bits o) with (raw_bits (concat (acc ++ [o]))).
  2:{ rewrite concat_app. cbn [concat]. rewrite app_nil_r. unfold raw_bits. apply map_app. }
  set (l := concat (acc ++ [o])). assert (Hl : bits l) by (apply bits_concat, Forall_app; split; [exact Ha | constructor; [exact Ho | constructor]]).
  destruct (c35_round_trip start s (raw_bits l) pterm Hr) as (G1 & G2 & G3 & G4 & _ & G5).
  set (s' := bypass_flush_enc pterm (bypass_all (raw_bits l) (bypass_init_enc start s))) in *.
  rewrite wipe_same by (intros Er; rewrite G4; apply Hc, Er). split; [exact G1 |]. split; [exact G2 |]. split; [exact G3 |]. split; [exact G4 |].
  intros m pos Hm. destruct (G5 m pos (ctxs s) Hm) as (d & D1 & D2 & D3). exists d. split; [| split; [congruence | exact D3]].
  apply raw_runs, raw_feeds. fold l. rewrite <- (raw_bits_back l Hl). unfold raw_bits in D1. rewrite map_length in D1. exact D1.
Qed.

(** ** How far the coder moves *)

Lemma byteout_bp : forall start s, bp (byteout start s) = bp s + 1.
Proof.
  intros. unfold byteout. cbv zeta. destruct (cur _ =? 255); [reflexivity |]. destruct (Z.land _ _ =? 0); [reflexivity |].
  destruct (cur _ =? 255); reflexivity.
Qed.
Lemma shift_bp : forall start s, bp s <= bp (shift_enc start s) <= bp s + 1.
Proof. intros. unfold shift_enc. cbv zeta. destruct (ct _ =? 0); [rewrite byteout_bp |]; cbn [bp]; lia. Qed.
Lemma renorme_bp : forall fuel start s, bp s <= bp (renorme fuel start s) <= bp s + Z.of_nat fuel.
Proof.
  induction fuel as [| fuel IH]; intros start s; cbn [renorme]; [cbn [check bp]; lia |]. cbv zeta. pose proof (shift_bp start s).
  destruct (negb _); [lia |]. specialize (IH start (shift_enc start s)). lia.
Qed.
Lemma encode_bp : forall start cx d s, bp s <= bp (encode start cx d s) <= bp s + 32.
Proof.
  intros. unfold encode. destruct (_ =? d).
  - unfold codemps. cbv zeta. destruct (Z.land _ _ =? 0); [| cbn [set_c set_a bp]; lia].
    match goal with |- _ <= bp (renorme rounds start ?x) <= _ => pose proof (renorme_bp rounds start x) as H; assert (E : bp x = bp s) end.
    { cbn [set_ctxs bp]. destruct (_ <? _); reflexivity. } rewrite E in H. exact H.
  - unfold codelps. cbv zeta.
    match goal with |- _ <= bp (renorme rounds start ?x) <= _ => pose proof (renorme_bp rounds start x) as H; assert (E : bp x = bp s) end.
    { cbn [set_ctxs bp]. destruct (_ <? _); reflexivity. } rewrite E in H. exact H.
Qed.
Lemma code_mq_bp : forall start o s, bp s <= bp (code_mq start o s) <= bp s + 32 * Z.of_nat (length o).
Proof.
  intros start o. unfold code_mq. induction o as [| x o IH]; intros s; cbn [fold_left length]; [lia |].
  pose proof (encode_bp start (fst x) (snd x) s). specialize (IH (encode start (fst x) (snd x) s)). lia.
Qed.
Lemma code_raw_bp : forall o s, bp s <= bp (code_raw o s) <= bp s + Z.of_nat (length o).
Proof.
  unfold code_raw. induction o as [| x o IH]; intros s; cbn [fold_left length]; [lia |].
  assert (bp s <= bp (bypass_enc (snd x) s) <= bp s + 1) by (unfold bypass_enc, put_raw; cbv zeta; destruct (_ =? 0); cbn [bp]; lia).
  specialize (IH (bypass_enc (snd x) s)). lia.
Qed.
Lemma erterm_bp : forall start s, bp s <= bp (erterm_enc start s) <= bp s + 33.
Proof.
  assert (L : forall fuel start k s, bp s <= bp (erterm_loop fuel start k s) <= bp s + Z.of_nat fuel).
  { induction fuel as [| fuel IH]; intros start k s; cbn [erterm_loop]; destruct (0 <? k); try (cbn [check bp]; lia). cbv zeta.
    match goal with |- context [erterm_loop fuel start ?k' ?x] => specialize (IH start k' x); assert (E : bp x = bp s + 1) end.
    { rewrite byteout_bp. reflexivity. } lia. }
  intros. unfold erterm_enc. cbv zeta. pose proof (L rounds start (11 - ct s + 1) s). change (Z.of_nat rounds) with 32 in H.
  destruct (negb _); [rewrite byteout_bp |]; lia.
Qed.
Lemma flush_bp : forall start s, bp s <= bp (flush start s) <= bp s + 3.
Proof.
  intros. unfold flush. cbv zeta.
  match goal with |- context [bp (if ?b then inc_bp ?x else _)] => assert (E : bp x = bp s + 2) end.
  { rewrite byteout_bp. cbn [set_c bp]. rewrite byteout_bp. cbn [set_c bp].
    unfold setbits. cbv zeta. match goal with |- context [if ?b then _ else _] => destruct b end; cbn [set_c bp]; lia. }
  destruct (negb _); [cbn [inc_bp set_bp bp] |]; lia.
Qed.
Lemma close_bp : forall start pterm s, bp s <= bp (close_mq start pterm s) <= bp s + 33.
Proof. intros. unfold close_mq. destruct pterm; [apply erterm_bp |]. pose proof (flush_bp start s). lia. Qed.
Lemma bypass_flush_bp : forall pterm s, bp (bypass_flush_enc pterm s) <= bp s + 1.
Proof.
  intros. unfold bypass_flush_enc. cbn [check bp]. unfold bypass_tail. cbv zeta.
  destruct (_ || _); [cbn [bp]; lia |]. destruct (_ && _); [cbn [set_bp bp]; lia |]. destruct (_ && _); cbn [set_bp bp]; lia.
Qed.
Lemma wipe_bp : forall reset s, bp (wipe reset s) = bp s /\ buf (wipe reset s) = buf s /\ ok (wipe reset s) = ok s.
Proof. intros. unfold wipe. destruct reset; split; [reflexivity | split; reflexivity | reflexivity | split; reflexivity]. Qed.
Lemma code_outs_bp : forall start reset outs s, bp s <= bp (code_outs start reset outs s).
Proof.
  intros start reset outs. unfold code_outs. induction outs as [| o outs IH]; intros s; cbn [fold_left]; [lia |].
  specialize (IH (wipe reset (code_mq start o s))). rewrite (proj1 (wipe_bp reset _)) in IH. pose proof (code_mq_bp start o s). lia.
Qed.
Lemma raw_outs_bp : forall reset outs s, bp s <= bp (raw_outs reset outs s).
Proof.
  intros reset outs. unfold raw_outs. induction outs as [| o outs IH]; intros s; cbn [fold_left]; [lia |].
  specialize (IH (wipe reset (code_raw o s))). rewrite (proj1 (wipe_bp reset _)) in IH. pose proof (code_raw_bp o s). lia.
Qed.

(** ** A sequence of passes *)

Record piece : Type := mkPiece { raw_of : bool; ends_of : bool; out_of : list sym }.

Section Run.
Variables (start : Z) (pterm reset : bool).

Definition turn (prev : bool) (P : piece) (s : mqc) : mqc * Z :=
  let s := if prev then (if raw_of P then bypass_init_enc start s else restart_init_enc start s) else s in
  let s := if raw_of P then code_raw (out_of P) s else code_mq start (out_of P) s in
  let s := if ends_of P then (if raw_of P then bypass_flush_enc pterm s else close_mq start pterm s) else s in
  let rate := u32 (numbytes start s) in
  let rate := if ends_of P then rate else u32 (rate + (if raw_of P then bypass_extra_bytes pterm s else 3)) in
  (wipe reset s, rate).
Fixpoint run (prev : bool) (ps : list piece) (s : mqc) : list Z * mqc :=
  match ps with
  | [] => ([], s)
  | P :: ps => let '(s, rate) := turn prev P s in let '(rates, s) := run (ends_of P) ps s in (rate :: rates, s)
  end.

(** Passes sharing a segment are of the same kind, and the last ends its segment. *)
Fixpoint wf (open : option bool) (ps : list piece) : Prop :=
  match ps with
  | [] => open = None
  | P :: ps => match open with None => True | Some b => raw_of P = b end /\ bits (out_of P) /\ wf (if ends_of P then None else Some (raw_of P)) ps
  end.
Fixpoint room (ps : list piece) : Z :=
  match ps with [] => 0 | P :: ps => 32 * Z.of_nat (length (out_of P)) + 40 + room ps end.
Lemma room_nonneg : forall ps, 0 <= room ps.
Proof. induction ps; cbn [room]; lia. Qed.

(** What the buffer holds, from [from] on up to [e], where [acc] has been coded
    already. *)
Fixpoint laid (b : mem) (e from : Z) (cx : mem) (acc : list (list sym)) (ps : list piece) (rates : list Z) : Prop :=
  match ps, rates with
  | [], [] => from <= e
  | P :: ps, r :: rates =>
      if ends_of P then
        from <= start + r /\ b (start + r - 1) <> 255 /\
        exists cx', read_ok reset (raw_of P) (acc ++ [out_of P]) b from (start + r) cx cx' /\ laid b e (start + r) cx' [] ps rates
      else from <= start + r /\ laid b e from cx (acc ++ [out_of P]) ps rates
  | _, _ => False
  end.

Lemma read_ok_frame : forall raw outs b b' from to cx cx', (forall i, from <= i < to -> b' i = b i) ->
  read_ok reset raw outs b from to cx cx' -> read_ok reset raw outs b' from to cx cx'.
Proof. intros raw outs b b' from to cx cx' F H m pos Hm. apply H. intros i Hi. rewrite Hm by exact Hi. apply F. lia. Qed.

Lemma laid_le : forall b e ps from cx acc rates, laid b e from cx acc ps rates -> from <= e.
Proof.
  intros b e. induction ps as [| P ps IH]; intros from cx acc rates H; cbn [laid] in H.
  - destruct rates; [exact H | contradiction].
  - destruct rates as [| r rates]; [contradiction |]. destruct (ends_of P).
    + destruct H as (H1 & _ & cx' & _ & H2). apply IH in H2. lia.
    + destruct H as (H1 & H2). apply IH in H2. exact H2.
Qed.

Definition result (from : Z) (cx b : mem) (acc : list (list sym)) (ps : list piece) (x : list Z * mqc) : Prop :=
  Ready start (snd x) /\ from <= bp (snd x) /\ bp (snd x) - start < 2 ^ 32 /\ (forall i, i < from -> buf (snd x) i = b i) /\
  laid (buf (snd x)) (bp (snd x)) from cx acc ps (fst x).

Lemma u32_small : forall x, 0 <= x < 2 ^ 32 -> u32 x = x.
Proof. intros x H. unfold u32. apply Z.mod_small. exact H. Qed.

Lemma add_u32 : forall x k, u32 (u32 x + k) = u32 (x + k).
Proof. intros. unfold u32. rewrite Z.add_mod_idemp_l by lia. reflexivity. Qed.

Definition closed_ok (ps : list piece) : Prop := forall s, Ready start s -> (reset = true -> ctxs s = reset_ctxs) -> wf None ps ->
  bp s - start + room ps < 2 ^ 32 -> result (bp s) (ctxs s) (buf s) [] ps (run true ps s).
Definition open_ok (ps : list piece) : Prop := forall s acc, Fresh start s -> (reset = true -> ctxs s = reset_ctxs) -> Forall bits acc ->
  wf (Some false) ps -> bp (code_outs start reset acc s) - start + room ps < 2 ^ 32 ->
  result (bp s + 1) (ctxs s) (buf s) acc ps (run false ps (code_outs start reset acc s)).
Definition open_raw_ok (ps : list piece) : Prop := forall s acc, Ready start s -> (reset = true -> ctxs s = reset_ctxs) -> Forall bits acc ->
  wf (Some true) ps -> bp (raw_outs reset acc (bypass_init_enc start s)) - start + room ps < 2 ^ 32 ->
  result (bp s) (ctxs s) (buf s) acc ps (run false ps (raw_outs reset acc (bypass_init_enc start s))).

Lemma run_start : forall P ps s, run true (P :: ps) s = run false (P :: ps) (if raw_of P then bypass_init_enc start s else restart_init_enc start s).
Proof. reflexivity. Qed.
Lemma restart_same : forall s, bp (restart_init_enc start s) + 1 = bp s /\ buf (restart_init_enc start s) = buf s /\ ctxs (restart_init_enc start s) = ctxs s.
Proof.
  intros s. unfold restart_init_enc. cbv zeta. destruct (_ =? 255); cbn [set_ct check bp buf ctxs]; (split; [lia | split; reflexivity]).
Qed.

(** After a terminated pass. *)
Lemma closed_after : forall from cx b acc P ps s' r, closed_ok ps -> ends_of P = true -> wf None ps ->
  Ready start s' -> from <= bp s' -> (forall i, i < from -> buf s' i = b i) -> (reset = true -> ctxs s' = reset_ctxs) ->
  r = bp s' - start -> bp s' - start + room ps < 2 ^ 32 ->
  read_ok reset (raw_of P) (acc ++ [out_of P]) (buf s') from (bp s') cx (ctxs s') ->
  result from cx b acc (P :: ps) (r :: fst (run true ps s'), snd (run true ps s')).
Proof.
  intros from cx b acc P ps s' r C E W R1 R2 R3 R4 -> Hb R5. destruct (C s' R1 R4 W Hb) as (G1 & G2 & G3 & G4 & G5).
  unfold result. cbn [fst snd laid]. rewrite E. replace (start + (bp s' - start)) with (bp s') by lia.
  split; [exact G1 |]. split; [lia |]. split; [exact G3 |]. split; [intros i Hi; rewrite G4 by lia; apply R3, Hi |].
  split; [exact R2 |]. split; [rewrite G4 by lia; apply (rd_prev _ _ R1) |].
  exists (ctxs s'). split; [| exact G5]. apply (read_ok_frame _ _ (buf s')); [| exact R5]. intros i Hi. apply G4. lia.
Qed.

Theorem run_ok : forall ps, (ps = [] \/ open_ok ps /\ open_raw_ok ps) /\ closed_ok ps.
Proof.
  assert (CL : forall P ps, open_ok (P :: ps) -> open_raw_ok (P :: ps) -> closed_ok (P :: ps)).
  { intros P ps O1 O2 s R Hc (_ & W) Hb. rewrite run_start. destruct (raw_of P) eqn:E.
    - apply (O2 s []); try assumption; [constructor |]. cbn [wf]; rewrite E; split; [reflexivity | exact W].
    - destruct (restart_same s) as (E1 & E2 & E3). rewrite <- E1, <- E2, <- E3. apply (O1 _ []); [apply restart_fresh, R | rewrite E3; exact Hc | constructor | cbn [wf]; rewrite E; split; [reflexivity | exact W] |].
      cbn [code_outs fold_left]. lia. }
  induction ps as [| P ps IH].
  - split; [left; reflexivity |]. intros s R _ _ Hb. cbn [room] in Hb. unfold result. cbn [run fst snd laid]. split; [exact R |]. split; [lia |]. split; [lia |].
    split; [reflexivity | lia].
  - destruct IH as [IHo IHc].
    assert (O1 : open_ok (P :: ps)).
    { intros s acc F Hc Ha W Hb. cbn [wf] in W. destruct W as (Er & Ho & W). cbn [room] in Hb. cbn [run]. unfold turn. rewrite Er. cbv zeta.
      set (x := code_outs start reset acc s) in *. pose proof (code_mq_bp start (out_of P) x) as B1. pose proof (code_outs_bp start reset acc s) as B0. fold x in B0.
      pose proof (room_nonneg ps) as Hr. pose proof (i_bp _ _ _ _ (fr_inv _ _ F)) as Hs.
      destruct (ends_of P) eqn:Ee.
      - destruct (mq_segment start pterm reset acc (out_of P) s F Ha Ho) as (R1 & R2 & R3 & R4 & R5). fold x in R1, R2, R3, R4, R5.
        set (y := close_mq start pterm (code_mq start (out_of P) x)) in *. pose proof (close_bp start pterm (code_mq start (out_of P) x)) as B2. fold y in B2.
        destruct (wipe_bp reset y) as (W1 & W2 & _). assert (Hy : start <= bp y) by (rewrite <- W1; apply (rd_bp _ _ R1)).
        destruct (run true ps (wipe reset y)) as [rates sE] eqn:ER.
        pose proof (closed_after (bp s + 1) (ctxs s) (buf s) acc P ps (wipe reset y) (u32 (numbytes start y)) IHc Ee W R1 R2 R3 R4) as G.
        rewrite ER in G. cbn [fst snd] in G. rewrite Er in G. apply G; [| rewrite W1; lia | exact R5].
        unfold numbytes. rewrite W1. apply u32_small. lia.
      - destruct IHo as [-> | [IHo _]]; [cbn [wf] in W; discriminate |]. rewrite Er in W.
        set (y := code_mq start (out_of P) x) in *. destruct (wipe_bp reset y) as (W1 & W2 & _).
        assert (EA : wipe reset y = code_outs start reset (acc ++ [out_of P]) s) by (unfold code_outs; rewrite fold_left_app; reflexivity).
        rewrite EA. pose proof (IHo s (acc ++ [out_of P]) F Hc) as G.
        destruct (run false ps (code_outs start reset (acc ++ [out_of P]) s)) as [rates sE]. unfold result in *. cbn [fst snd laid] in *. rewrite Ee.
        destruct G as (G1 & G2 & G3 & G4 & G5).
        { apply Forall_app. split; [exact Ha | constructor; [exact Ho | constructor]]. } { exact W. } { rewrite <- EA, W1. lia. }
        split; [exact G1 |]. split; [exact G2 |]. split; [exact G3 |]. split; [exact G4 |]. split; [| exact G5].
        rewrite add_u32. unfold numbytes. rewrite u32_small by lia. lia. }
    assert (O2 : open_raw_ok (P :: ps)).
    { intros s acc R Hc Ha W Hb. cbn [wf] in W. destruct W as (Er & Ho & W). cbn [room] in Hb. cbn [run]. unfold turn. rewrite Er. cbv zeta.
      set (x := raw_outs reset acc (bypass_init_enc start s)) in *. pose proof (code_raw_bp (out_of P) x) as B1. pose proof (raw_outs_bp reset acc (bypass_init_enc start s)) as B0. fold x in B0.
      change (bp (bypass_init_enc start s)) with (bp s) in B0. pose proof (room_nonneg ps) as Hr. pose proof (rd_bp _ _ R) as Hs.
      destruct (ends_of P) eqn:Ee.
      - destruct (raw_segment start pterm reset acc (out_of P) s R Hc Ha Ho) as (R1 & R2 & R3 & R4 & R5). fold x in R1, R2, R3, R4, R5.
        set (y := bypass_flush_enc pterm (code_raw (out_of P) x)) in *. pose proof (bypass_flush_bp pterm (code_raw (out_of P) x)) as B2. fold y in B2.
        destruct (wipe_bp reset y) as (W1 & W2 & _). assert (Hy : start <= bp y) by (rewrite <- W1; apply (rd_bp _ _ R1)).
        destruct (run true ps (wipe reset y)) as [rates sE] eqn:ER.
        pose proof (closed_after (bp s) (ctxs s) (buf s) acc P ps (wipe reset y) (u32 (numbytes start y)) IHc Ee W R1 R2 R3) as G.
        rewrite ER in G. cbn [fst snd] in G. rewrite Er in G. apply G; [intros Et; rewrite R4; apply Hc, Et | | rewrite W1; lia | exact R5].
        unfold numbytes. rewrite W1. apply u32_small. lia.
      - destruct IHo as [-> | [_ IHo]]; [cbn [wf] in W; discriminate |]. rewrite Er in W.
        set (y := code_raw (out_of P) x) in *. destruct (wipe_bp reset y) as (W1 & W2 & _).
        assert (EA : wipe reset y = raw_outs reset (acc ++ [out_of P]) (bypass_init_enc start s)) by (unfold raw_outs; rewrite fold_left_app; reflexivity).
        rewrite EA. pose proof (IHo s (acc ++ [out_of P]) R Hc) as G.
        destruct (run false ps (raw_outs reset (acc ++ [out_of P]) (bypass_init_enc start s))) as [rates sE]. unfold result in *. cbn [fst snd laid] in *. rewrite Ee.
        destruct G as (G1 & G2 & G3 & G4 & G5).
        { apply Forall_app. split; [exact Ha | constructor; [exact Ho | constructor]]. } { exact W. } { rewrite <- EA, W1. lia. }
        split; [exact G1 |]. split; [exact G2 |]. split; [exact G3 |]. split; [exact G4 |]. split; [| exact G5].
        rewrite add_u32. unfold numbytes. assert (0 <= bypass_extra_bytes pterm y <= 1) by (unfold bypass_extra_bytes; destruct (_ || _); lia).
        rewrite u32_small by lia. lia. }
    split; [right; split; assumption | apply CL; assumption].
Qed.

(** From a fresh start, with something to code. *)
Corollary run_fresh : forall ps s, Fresh start s -> (reset = true -> ctxs s = reset_ctxs) -> ps <> [] -> wf (Some false) ps ->
  bp s - start + room ps < 2 ^ 32 -> result (bp s + 1) (ctxs s) (buf s) [] ps (run false ps s).
Proof.
  intros ps s F Hc Hn W Hb. destruct (run_ok ps) as [[E | [O _]] _]; [congruence |]. apply (O s []); try assumption. constructor.
Qed.
End Run.
