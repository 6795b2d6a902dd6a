(** Proofs about the variable-length codes of tier 2. *)

From Coq Require Import ZArith List Bool Lia.
From Verif Require Import ZBits BioModel BioSpec BioProofs BioStream TgtModel T2CodesModel.
Import ListNotations.
Local Open Scope Z_scope.

Lemma field_bits_app : forall a b, field_bits (a ++ b) = field_bits a ++ field_bits b.
Proof. intros. unfold field_bits. apply flat_map_app. Qed.

Lemma commacode_bits : forall n, field_bits (put_commacode n) = repeat true (Z.to_nat n) ++ [false].
Proof.
  intros n. unfold put_commacode. rewrite field_bits_app. f_equal.
  induction (Z.to_nat n); [reflexivity |]. cbn [repeat]. rewrite field_bits_cons, IHn0. reflexivity.
Qed.

Lemma get_commacode_src : forall k fuel acc bytes r l, (k < fuel)%nat ->
  Src bytes r (repeat true k ++ false :: l) ->
  exists r', get_commacode fuel acc r = Some (acc + Z.of_nat k, r') /\ Src bytes r' l.
Proof.
  induction k; intros fuel acc bytes r l Hf H; (destruct fuel; [lia |]); cbn [get_commacode repeat app] in *;
    destruct (read1_src _ _ _ _ H) as (r1 & E & H1); rewrite E.
  - exists r1. rewrite Z.add_0_r. auto.
  - destruct (IHk fuel (acc + 1) bytes r1 l ltac:(lia) H1) as (r' & E' & H'). exists r'.
    rewrite E'. split; [f_equal; f_equal; lia | exact H'].
Qed.

Lemma readn_src : forall n bytes bs r l, Src bytes r (bs ++ l) -> List.length bs = n -> (1 <= n <= 32)%nat ->
  exists r', readn n r = (number bs, r') /\ Src bytes r' l.
Proof.
  intros n bytes bs r l H Hl Hn. destruct (bio_read_src bytes bs r (Z.of_nat n) l H) as (r' & E & H'); [lia | lia |].
  exists r'. split; [| exact H']. unfold bio_read in E.
  replace ((0 <? Z.of_nat n) && (Z.of_nat n <=? 32)) with true in E
    by (symmetry; apply andb_true_intro; rewrite Z.ltb_lt, Z.leb_le; lia).
  rewrite Nat2Z.id in E. unfold readn. injection E as E. exact E.
Qed.

(** The code words. *)
Lemma numpasses_bits : forall n, 1 <= n <= 164 -> field_bits (put_numpasses n) =
  if n =? 1 then [false] else if n =? 2 then [true; false]
  else if n <=? 5 then [true; true] ++ bits_of 2 (n - 3)
  else if n <=? 36 then [true; true; true; true] ++ bits_of 5 (n - 6)
  else [true; true; true; true; true; true; true; true; true] ++ bits_of 7 (n - 37).
Proof.
  intros n Hn. unfold put_numpasses.
  destruct (Z.eqb_spec n 1); [reflexivity |]. destruct (Z.eqb_spec n 2); [reflexivity |].
  destruct (Z.leb_spec n 5).
  { replace (u32 (n - 3)) with (n - 3) by (unfold u32; rewrite Z.mod_small; lia).
    assert (n = 3 \/ n = 4 \/ n = 5) as [-> | [-> | ->]] by lia; reflexivity. }
  destruct (Z.leb_spec n 36).
  { replace (u32 (n - 6)) with (n - 6) by (unfold u32; rewrite Z.mod_small; lia).
    rewrite field_bits_cons. change (Z.to_nat 9) with (4 + 5)%nat. rewrite bits_of_split.
    cbn [field_bits flat_map]. rewrite app_nil_r.
    change (Z.lor 480 (n - 6)) with (Z.lor (15 * 2 ^ 5) (n - 6)). rewrite lor_add by (change (2 ^ 5) with 32; lia).
    change (2 ^ Z.of_nat 5) with (2 ^ 5). f_equal.
    - rewrite Z.add_comm, Z.div_add by lia. rewrite Z.div_small by (change (2 ^ 5) with 32; lia). reflexivity.
    - rewrite <- (bits_of_mod 5 5) by lia. rewrite Z.add_comm. change (2 ^ Z.of_nat 5) with (2 ^ 5).
      rewrite Z.mod_add by lia. rewrite Z.mod_small by (change (2 ^ 5) with 32; lia). reflexivity. }
  destruct (Z.leb_spec n 164); [| lia].
  replace (u32 (n - 37)) with (n - 37) by (unfold u32; rewrite Z.mod_small; lia).
  rewrite field_bits_cons. change (Z.to_nat 16) with (9 + 7)%nat. rewrite bits_of_split.
  cbn [field_bits flat_map]. rewrite app_nil_r.
  change (Z.lor 65408 (n - 37)) with (Z.lor (511 * 2 ^ 7) (n - 37)). rewrite lor_add by (change (2 ^ 7) with 128; lia).
  change (2 ^ Z.of_nat 7) with (2 ^ 7). f_equal.
  - rewrite Z.add_comm, Z.div_add by lia. rewrite Z.div_small by (change (2 ^ 7) with 128; lia). reflexivity.
  - rewrite <- (bits_of_mod 7 7) by lia. rewrite Z.add_comm. change (2 ^ Z.of_nat 7) with (2 ^ 7).
    rewrite Z.mod_add by lia. rewrite Z.mod_small by (change (2 ^ 7) with 128; lia). reflexivity.
Qed.

Lemma get_numpasses_src : forall n bytes r l, 1 <= n <= 164 ->
  Src bytes r (field_bits (put_numpasses n) ++ l) ->
  exists r', get_numpasses r = (n, r') /\ Src bytes r' l.
Proof.
  intros n bytes r l Hn H. rewrite numpasses_bits in H by assumption. unfold get_numpasses.
  destruct (Z.eqb_spec n 1) as [-> |].
  { cbn [app] in H. destruct (read1_src _ _ _ _ H) as (r1 & -> & H1). exists r1. auto. }
  destruct (Z.eqb_spec n 2) as [-> |].
  { cbn [app] in H. destruct (read1_src _ _ _ _ H) as (r1 & -> & H1).
    destruct (read1_src _ _ _ _ H1) as (r2 & -> & H2). exists r2. auto. }
  destruct (Z.leb_spec n 5) as [L5 | L5].
  { rewrite <- app_assoc in H. cbn [app] in H. destruct (read1_src _ _ _ _ H) as (r1 & -> & H1).
    destruct (read1_src _ _ _ _ H1) as (r2 & -> & H2). cbn [negb].
    destruct (readn_src 2 _ _ _ _ H2) as (r3 & -> & H3); [apply bits_of_length | lia |].
    rewrite number_bits. change (2 ^ Z.of_nat 2) with 4. rewrite Z.mod_small by lia.
    replace (n - 3 =? 3) with false by (symmetry; apply Z.eqb_neq; lia). cbn [negb].
    exists r3. split; [f_equal; lia | exact H3]. }
  destruct (Z.leb_spec n 36) as [L6 | L6].
  { rewrite <- app_assoc in H. cbn [app] in H. destruct (read1_src _ _ _ _ H) as (r1 & -> & H1).
    destruct (read1_src _ _ _ _ H1) as (r2 & -> & H2). cbn [negb].
    destruct (readn_src 2 _ [true; true] _ _ H2) as (r3 & -> & H3); [reflexivity | lia |].
    change (negb (number [true; true] =? 3)) with false. cbn iota.
    destruct (readn_src 5 _ _ _ _ H3) as (r4 & -> & H4); [apply bits_of_length | lia |].
    rewrite number_bits. change (2 ^ Z.of_nat 5) with 32. rewrite Z.mod_small by lia.
    replace (n - 6 =? 31) with false by (symmetry; apply Z.eqb_neq; lia). cbn [negb].
    exists r4. split; [f_equal; lia | exact H4]. }
  rewrite <- app_assoc in H. cbn [app] in H. destruct (read1_src _ _ _ _ H) as (r1 & -> & H1).
  destruct (read1_src _ _ _ _ H1) as (r2 & -> & H2). cbn [negb].
  destruct (readn_src 2 _ [true; true] _ _ H2) as (r3 & -> & H3); [reflexivity | lia |].
  change (negb (number [true; true] =? 3)) with false. cbn iota.
  destruct (readn_src 5 _ [true; true; true; true; true] _ _ H3) as (r4 & -> & H4); [reflexivity | lia |].
  change (negb (number [true; true; true; true; true] =? 31)) with false. cbn iota.
  destruct (readn_src 7 _ _ _ _ H4) as (r5 & -> & H5); [apply bits_of_length | lia |].
  rewrite number_bits. change (2 ^ Z.of_nat 7) with 128. rewrite Z.mod_small by lia.
  exists r5. split; [f_equal; lia | exact H5].
Qed.

Lemma numpasses_ok : forall n, Forall (fun f => 1 <= snd f <= 32) (put_numpasses n).
Proof.
  intros n. unfold put_numpasses.
  destruct (n =? 1), (n =? 2), (n <=? 5), (n <=? 36), (n <=? 164); repeat constructor; cbn; lia.
Qed.

Lemma commacode_ok : forall n, Forall (fun f => 1 <= snd f <= 32) (put_commacode n).
Proof.
  intros n. unfold put_commacode. apply Forall_app. split.
  - apply Forall_forall. intros x Hx. apply repeat_spec in Hx. subst x. cbn. lia.
  - repeat constructor; cbn; lia.
Qed.
