(** A reader positioned before the remaining bits [l] of a byte sequence, and
    its use by decoders. *)

From Coq Require Import ZArith List Bool Lia.
From Verif Require Import ZBits BioModel BioSpec BioProofs TgtModel.
Import ListNotations.
Local Open Scope Z_scope.

Definition Src (bytes : list Z) (r : bio_r) (l : list bool) : Prop :=
  Forall byte_range bytes /\
  exists n, (n + List.length l = List.length (unstuff 0 bytes))%nat /\ placed bytes n r /\ reads r l.

Lemma src_init : forall bytes, Forall byte_range bytes -> Src bytes (init_dec bytes) (unstuff 0 bytes).
Proof.
  intros bytes H. split; [exact H |]. exists 0%nat. split; [reflexivity |]. split; [apply placed_init |].
  apply reads_init. exact H.
Qed.

Lemma getbit_src : forall bytes r b l, Src bytes r (b :: l) ->
  exists r', getbit r = (Z.b2z b, r') /\ Src bytes r' l.
Proof.
  intros bytes r b l (Hf & n & Hn & Hp & Hr). destruct (getbit r) as [x r'] eqn:E.
  destruct (getbit_reads _ _ _ _ Hr E) as [-> Hr']. exists r'. split; [reflexivity |].
  split; [exact Hf |]. exists (S n). cbn [List.length] in Hn. split; [lia |]. split.
  - eapply getbit_placed; [exact Hf | exact Hp | lia | exact E].
  - exact Hr'.
Qed.

Lemma read1_src : forall bytes r b l, Src bytes r (b :: l) ->
  exists r', read1 r = (b, r') /\ Src bytes r' l.
Proof.
  intros bytes r b l H. destruct (getbit_src _ _ _ _ H) as (r' & E & H'). exists r'.
  split; [| exact H']. unfold read1. cbn [read_loop]. rewrite E. destruct b; reflexivity.
Qed.

Lemma bio_read_src : forall bytes bs r n l, Src bytes r (bs ++ l) -> Z.of_nat (List.length bs) = n ->
  1 <= n <= 32 -> exists r', bio_read r n = Some (number bs, r') /\ Src bytes r' l.
Proof.
  intros bytes bs r n l (Hf & m & Hm & Hp & Hr) Hn Hk.
  destruct (bio_read r n) as [[v r'] |] eqn:Eb.
  2: { unfold bio_read in Eb. replace ((0 <? n) && (n <=? 32)) with true in Eb; [discriminate |].
       symmetry. apply andb_true_intro. rewrite Z.ltb_lt, Z.leb_le. lia. }
  destruct (bio_read_reads _ _ _ _ _ Hr Eb) as [Hv Hr'].
  replace (Z.to_nat n) with (List.length bs) in Hv, Hr' by lia.
  rewrite take_app in Hv. rewrite skipn_app, skipn_all, Nat.sub_diag in Hr'. cbn [skipn app] in Hr'.
  exists r'. subst v. split; [reflexivity |]. split; [exact Hf |].
  rewrite app_length in Hm. exists (m + List.length bs)%nat. split; [lia |]. split; [| exact Hr'].
  unfold bio_read in Eb. destruct ((0 <? n) && (n <=? 32)); [| discriminate].
  eapply read_loop_placed with (w := 0) (v := number bs); [exact Hf | exact Hp | lia |].
  injection Eb as Eb. replace (List.length bs) with (Z.to_nat n) by lia. exact Eb.
Qed.

(** Bits put one by one, flushed, and offered to a reader together with
    whatever follows: the reader is positioned before them, and aligning after
    reading just them stops behind the bytes written. *)
Lemma src_of_flush : forall len bs w' rest, bs <> [] -> Forall byte_range rest ->
  flush (putbits (init_enc len) bs) = (w', true) ->
  let bytes := rev (w_out w') ++ rest in
  exists tail, Src bytes (init_dec bytes) (bs ++ tail) /\
    forall r, Src bytes r tail ->
      exists r', inalign r = (r', true) /\ r_in r' = rest /\ r_numbytes r' = w_numbytes w'.
Proof.
  intros len bs w' rest Hne Hrest Hfl bytes.
  assert (Hi : winv (putbits (init_enc len) bs) bs).
  { apply (putbits_inv bs (init_enc len) []). left. split; [apply good_init |]. intros X. contradiction. }
  destruct Hi as [[Hg Hst] | Hroom].
  2: { exfalso. unfold flush in Hfl. destruct (byteout (putbits (init_enc len) bs)) as [w1 b] eqn:Eb.
       pose proof (byteout_room _ Hroom) as (_ & X & _). rewrite Eb in X. cbn in X. subst b. discriminate. }
  destruct (good_flush _ _ _ Hg Hst Hfl) as (k & Hun & Hfb & _ & Hlast).
  destruct (Hlast Hne) as (a & x & Ea & Hn).
  assert (Hfb' : Forall byte_range (rev (w_out w'))) by (apply Forall_rev; assumption).
  assert (Hfall : Forall byte_range bytes) by (apply Forall_app; auto).
  exists (zeros k ++ unstuff (last (rev (w_out w')) 0) rest).
  assert (HU : unstuff 0 bytes = bs ++ zeros k ++ unstuff (last (rev (w_out w')) 0) rest).
  { unfold bytes. rewrite unstuff_app, Hun, <- app_assoc. reflexivity. }
  split.
  - rewrite <- HU. apply src_init. exact Hfall.
  - intros r (_ & n & Hln & Hp & _). rewrite HU, !app_length in Hln.
    assert (n = List.length bs) by lia. subst n.
    unfold bytes in Hp. rewrite Ea, <- app_assoc in Hp.
    assert (Hfx : Forall byte_range (a ++ x :: rest)).
    { rewrite Ea in Hfb'. apply Forall_app in Hfb'. destruct Hfb' as [F1 F2]. apply Forall_app. split; [assumption |].
      constructor; [| assumption]. destruct (x =? 255); inversion F2; assumption. }
    destruct (placed_inalign a x rest _ r Hfx Hp Hn) as (r' & E1 & E2 & E3 & _).
    exists r'. split; [exact E1 |]. split; [exact E2 |].
    unfold r_numbytes, w_numbytes. rewrite E3, <- Ea, rev_length. reflexivity.
Qed.
