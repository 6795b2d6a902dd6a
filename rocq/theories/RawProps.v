(** C35: the raw (bypass) coder.

    Whatever bits are written, with either termination and including the bytes
    the termination discards, the raw decoder returns them; the bytes never
    look like a marker, and an MQ or raw segment may follow. *)

From Coq Require Import ZArith List Lia Bool.
From Verif Require Import BioSpec BioProofs Ints Mem MqModel MqProofs MqProps RawProofs.
Import ListNotations.
Local Open Scope Z_scope.

(** What a raw segment [bp s, bp s') must satisfy. *)
Definition raw_segment_ok (start : Z) (l : list bool) (s s' : mqc) : Prop :=
  Ready start s' /\ bp s <= bp s' /\ (forall i, i < bp s -> buf s' i = buf s i) /\ ctxs s' = ctxs s /\
  (forall i, bp s <= i -> i + 1 < bp s' -> buf s' i = 255 -> buf s' (i + 1) <= 0x7F) /\
  forall m pos cx, copied (buf s') m (bp s) pos (bp s' - bp s) ->
    exists d, raw_decode_all (length l) (raw_init_dec m pos (bp s' - bp s) cx) = (map Z.b2z l, d) /\
              dctxs d = cx /\ (forall i, finish_dec d i = m i).

Lemma raw_start : forall start s, Ready start s -> Raw (bp s) s [] [] [] (bypass_init_enc start s).
Proof.
  intros start s [Hb Hx Hbp Hcl Hpr Hok]. assert (E : (buf s (bp s - 1) =? 255) = false) by (apply Z.eqb_neq; exact Hpr).
  assert (E1 : (start <=? bp s) = true) by (apply Z.leb_le; lia).
  unfold bypass_init_enc, check, set_c, set_ct. cbn [c a ct bp buf ctxs ok]. rewrite E1, E, Hok.
  constructor; cbn [c a ct bp buf ctxs ok length]; try assumption; try reflexivity; try exact I.
  - lia.
  - intros i Hi. lia.
  - left. repeat split.
Qed.

Lemma stuffed_nth : forall bs p i, stuffed p bs -> (S i < length bs)%nat -> nth i bs 0 = 255 -> nth (S i) bs 0 < 128.
Proof.
  induction bs as [| x bs IH]; intros p i Hs Hi E; [cbn in Hi; lia |]. cbn [stuffed] in Hs. destruct Hs as (_ & _ & Hs).
  destruct i as [| i].
  - destruct bs as [| y bs]; [cbn in Hi; lia |]. cbn [nth] in *. cbn [stuffed] in Hs. destruct Hs as (_ & H & _). apply H, E.
  - cbn [nth] in *. cbn [length] in Hi. apply (IH x i Hs); [lia | exact E].
Qed.

Lemma last_nth : forall (bs : list Z) d, (0 < length bs)%nat -> nth (length bs - 1) bs 0 = last bs d.
Proof.
  intros bs d Hl. destruct (last_cases bs) as [-> | (b & v & ->)]; [cbn in Hl; lia |].
  rewrite last_app1, app_length. cbn [length]. rewrite app_nth2 by lia. replace (length b + 1 - 1 - length b)%nat with O by lia. reflexivity.
Qed.

Lemma prefix_take : forall l r, prefix l r -> map (fun i => Z.b2z (bit_at r i)) (seq 0 (length l)) = map Z.b2z l.
Proof.
  induction l as [| b l IH]; intros r H; [reflexivity |]. cbn [length seq map]. rewrite (H O) by (cbn; lia). cbn [bit_at nth]. f_equal.
  rewrite <- seq_shift, map_map. rewrite <- (IH (tl r)).
  - apply map_ext. intros i. unfold bit_at. destruct r; [destruct i; reflexivity | reflexivity].
  - intros i Hi. specialize (H (S i) ltac:(cbn; lia)). unfold bit_at in *. cbn [nth] in H. rewrite <- H.
    destruct r; [destruct i; reflexivity | reflexivity].
Qed.

(** The decoder by itself: any bytes in which 0xFF is followed by at most 0x8F
    and which do not end in 0xFF are read as their unstuffed bits followed by
    ones. *)
Theorem c35_decoder : forall m pos bs cx n, decodable 0 bs -> (forall i, (i < length bs)%nat -> m (pos + Z.of_nat i) = nth i bs 0) ->
  let r := raw_decode_all n (raw_init_dec m pos (Z.of_nat (length bs)) cx) in
  fst r = map (fun i => Z.b2z (bit_at (unstuff 0 bs) i)) (seq 0 n) /\ dctxs (snd r) = cx /\ (forall i, finish_dec (snd r) i = m i).
Proof.
  intros m pos bs cx n Hd Hm. cbn zeta. set (e := pos + Z.of_nat (length bs)).
  assert (Hh : holds (with_marker m e) pos bs).
  { unfold with_marker. split; [| split].
    - intros i Hi. rewrite !upd_other by (unfold e; lia). apply Hm, Hi.
    - fold e. rewrite upd_other by lia. apply upd_same.
    - fold e. apply upd_same. }
  set (d := raw_init_dec m pos (Z.of_nat (length bs)) cx).
  assert (Hr : RRel (with_marker m e) pos bs (unstuff 0 bs) d).
  { constructor; unfold d, raw_init_dec; cbn [dbuf dct dbp dc]; [reflexivity | lia |]. left. exists O. cbn [skipn]. split; [lia |]. split; [lia |]. split; [exact Hd | reflexivity]. }
  destruct (raw_decode_all_sync _ _ _ n _ d Hh Hr) as (E1 & E2 & E3 & E4 & E5). split; [exact E1 |]. split; [exact E3 |].
  intros i. unfold finish_dec. rewrite E2, E4, E5. unfold d, raw_init_dec. cbn [dend backup fst snd]. fold e. unfold with_marker, upd.
  destruct (Z.eqb_spec i (e + 1)) as [-> | N1]; [reflexivity |]. destruct (Z.eqb_spec i e) as [-> | N2]; reflexivity.
Qed.

Theorem c35_round_trip : forall start s l erterm, Ready start s ->
  raw_segment_ok start l s (bypass_flush_enc erterm (bypass_all l (bypass_init_enc start s))).
Proof.
  intros start s l erterm Hr. destruct (raw_all _ _ l _ _ _ _ (raw_start start s Hr)) as (bs0 & pend & Hw). cbn [app] in Hw.
  pose proof Hr as [Hb Hx Hbp [Hcl Hla] Hpr Hok].
  destruct (raw_tail _ _ _ _ _ _ erterm Hw Hpr) as (bs & T1 & T2 & T3 & T4 & T5 & T6 & T7 & T8 & T9).
  set (x := bypass_tail erterm (bypass_all l (bypass_init_enc start s))) in *.
  assert (Lst : buf x (bp x - 1) <> 255).
  { rewrite T1. destruct (Nat.eq_dec (length bs) 0) as [E | E].
    - rewrite E. replace (bp s + Z.of_nat 0 - 1) with (bp s - 1) by lia. rewrite T3 by lia. exact Hpr.
    - replace (bp s + Z.of_nat (length bs) - 1) with (bp s + Z.of_nat (length bs - 1)) by lia. rewrite T2 by lia. rewrite (last_nth bs 0) by lia. exact T8. }
  assert (Ex : bypass_flush_enc erterm (bypass_all l (bypass_init_enc start s)) = x).
  { unfold bypass_flush_enc. fold x. unfold check. replace (buf x (bp x - 1) =? 255) with false by (symmetry; apply Z.eqb_neq; exact Lst).
    rewrite andb_true_r. destruct x. reflexivity. }
  rewrite Ex. clearbody x. clear Ex.
  assert (Seg : forall i, bp s <= i -> i + 1 < bp x -> buf x i = 255 -> buf x (i + 1) <= 127).
  { intros i H1 H2 E. pose proof (stuffed_nth bs 0 (Z.to_nat (i - bp s)) T7 ltac:(lia)) as H.
    rewrite <- T2, <- T2 in H by lia. replace (bp s + Z.of_nat (Z.to_nat (i - bp s))) with i in H by lia.
    replace (bp s + Z.of_nat (S (Z.to_nat (i - bp s)))) with (i + 1) in H by lia. specialize (H E). lia. }
  split; [| split; [lia |]; split; [exact T3 |]; split; [exact T5 |]; split; [exact Seg |]].
  - constructor; try assumption; try lia.
    + unfold valid_ctxs. rewrite T5. exact Hx.
    + split; [| intros _; exact Lst]. intros i H1 H2 E. destruct (Z_lt_ge_dec i (bp s)) as [L | G]; [| specialize (Seg i ltac:(lia) H2 E); lia].
      rewrite T3 in E by lia. destruct (Z.eq_dec (i + 1) (bp s)) as [E1 | E1].
      * exfalso. apply Hpr. replace (bp s - 1) with i by lia. exact E.
      * rewrite T3 by lia. apply Hcl; [exact H1 | lia | exact E].
  - intros m pos cx Hm. assert (El : bp x - bp s = Z.of_nat (length bs)) by lia. rewrite El in *.
    destruct (c35_decoder m pos bs cx (length l) (decodable_of bs 0 T7 T8)) as (D1 & D2 & D3).
    { intros i Hi. rewrite Hm by lia. apply T2, Hi. }
    rewrite (prefix_take _ _ T9) in D1. destruct (raw_decode_all _ _) as [o d]. cbn [fst snd] in *. exists d. subst o. repeat split; assumption.
Qed.

(** ** Examples *)

Definition after_first : mqc := flush 0 (encode_all 0 [(0, 1); (3, 0)] (init_enc 0 (fun _ => 0) reset_ctxs)).
Definition written (l : list bool) (erterm : bool) : list Z :=
  let s' := bypass_flush_enc erterm (bypass_all l (bypass_init_enc 0 after_first)) in
  map (fun i => buf s' (bp after_first + Z.of_nat i)) (seq 0 (Z.to_nat (bp s' - bp after_first))).

(** Stuffing, padding, and the two discards. *)
Example c35_bytes : written (repeat true 10) false = [255; 0x6A] /\ written (repeat true 8) false = [] /\ written (repeat true 8) true = [255; 0x2A] /\
  written (repeat true 15) false = [] /\ written (repeat true 15) true = [255; 127] /\ written [true; false; true] false = [0xAA].
Proof. vm_compute. repeat split. Qed.

Example c35_run : let l := repeat true 23 ++ [false; true; false; false] in
  let s' := bypass_flush_enc false (bypass_all l (bypass_init_enc 0 after_first)) in
  fst (raw_decode_all 27 (raw_init_dec (buf s') (bp after_first) (bp s' - bp after_first) reset_ctxs)) = map Z.b2z l.
Proof. vm_compute. reflexivity. Qed.

Print Assumptions c35_decoder.
Print Assumptions c35_round_trip.
