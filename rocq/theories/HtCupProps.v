(** C74: the cleanup pass of high-throughput code-blocks gives the samples that
    the three streams of the block code. *)

From Coq Require Import ZArith List Bool Lia.
From Verif Require Import Ints HtModel HtSpec HtBits HtForward HtBackward HtMelProps HtReadProps HtLuts HtCupModel HtCupSpec HtCupBlock.
Import ListNotations.
Local Open Scope Z_scope.

(** C74. For every block with well-formed bytes, of any size, for whatever the
    memory held before: it is refused if it breaks a rule, otherwise each sample
    is the coded one, and nothing is written beside the samples. *)
Theorem c74_block : forall base buf lcup scup w h p zp1 data ls N, Forall byte buf -> 2 <= scup <= lcup -> lcup <= Z.of_nat (length buf) -> 1 <= p <= 30 -> zp1 + p <= 31 -> 1 <= w -> 1 <= h ->
  fwd_tidy false (seg buf 0 (lcup - scup)) -> vlc_tidy (bseg buf (lcup - 2) (scup - 1)) -> 64 * ((w + 3) / 4) * ((h + 1) / 2) + 16 <= Z.of_nat N ->
  (mel_init base buf lcup scup = Some None /\ cup_block base buf lcup scup w h p zp1 data ls = Some None) \/
  exists r, block_spec vlc_tbl0 vlc_tbl1 w h zp1 (streams buf lcup scup N) = Some r /\
    match r with
    | None => cup_block base buf lcup scup w h p zp1 data ls = Some None
    | Some L => exists f, cup_block base buf lcup scup w h p zp1 data ls = Some (Some f) /\
        (forall x y, 0 <= x < w -> 0 <= y < h -> f (y * w + x) = value p (sample_at L x y)) /\ (forall j, ~ 0 <= j < w * h -> f j = data j)
    end.
Proof. exact block_ok. Qed.
Print Assumptions c74_block.

(** The length of the two shared segments, from the last two bytes. *)
Definition shared_length (buf : list Z) (lcup : Z) : Z := 16 * nth (Z.to_nat (lcup - 1)) buf 0 + nth (Z.to_nat (lcup - 2)) buf 0 mod 16.
Definition length_ok (buf : list Z) (lcup : Z) : Prop := 2 <= lcup <= Z.of_nat (length buf) /\ 2 <= shared_length buf lcup <= lcup /\ shared_length buf lcup <= 4079.

Lemma nth_byte : forall buf i, 0 <= i < Z.of_nat (length buf) -> byte_at buf i = Some (nth (Z.to_nat i) buf 0).
Proof.
  intros buf i R. unfold byte_at. destruct (Z.ltb_spec i 0); [lia |]. apply nth_error_nth'. lia.
Qed.
Lemma decode_eq : forall base buf lcup w h Mb numbps data ls, Forall byte buf -> 1 <= Mb <= 30 -> 0 <= numbps < 2 ^ 32 ->
  (~ (1 <= numbps <= Mb + 1) \/ ~ length_ok buf lcup -> cup_decode base buf lcup w h Mb numbps data ls = Some None) /\
  (1 <= numbps <= Mb + 1 -> length_ok buf lcup -> cup_decode base buf lcup w h Mb numbps data ls = cup_block base buf lcup (shared_length buf lcup) w h numbps (Mb + 2 - numbps) data ls).
Proof.
  intros base buf lcup w h Mb numbps data ls B M R. unfold cup_decode. destruct (Z.eqb_spec Mb 0); [lia |]. destruct (Z.ltb_spec 30 Mb); [lia |]. cbv zeta.
  assert (Z1 : 1 <= numbps <= Mb + 1 -> u32 (Mb + 1 - numbps) = Mb + 1 - numbps) by (intros; unfold u32; rewrite Z.mod_small; lia).
  assert (Z2 : ~ (1 <= numbps <= Mb + 1) -> Mb < u32 (Mb + 1 - numbps)).
  { intros K. unfold u32. destruct (Z.eq_dec numbps 0) as [-> | N]; [rewrite Z.mod_small; lia |]. replace (Mb + 1 - numbps) with (Mb + 1 - numbps + 2 ^ 32 + (-1) * 2 ^ 32) by lia. rewrite Z.mod_add, Z.mod_small by lia. lia. }
  assert (Sh : forall c d, (if (lcup <? 2) || (Z.of_nat (length buf) <? lcup) then Some None
      else match byte_at buf (lcup - 1) with
           | Some a => match byte_at buf (lcup - 2) with
                       | Some b => if (Z.shiftl a 4 + Z.land b 15 <? 2) || (lcup <? Z.shiftl a 4 + Z.land b 15) || (4079 <? Z.shiftl a 4 + Z.land b 15) then Some None else cup_block base buf lcup (Z.shiftl a 4 + Z.land b 15) w h c d data ls
                       | None => None end
           | None => None end) = (if (2 <=? lcup) && (lcup <=? Z.of_nat (length buf)) && (2 <=? shared_length buf lcup) && (shared_length buf lcup <=? lcup) && (shared_length buf lcup <=? 4079)
                                  then cup_block base buf lcup (shared_length buf lcup) w h c d data ls else Some None)).
  { intros c d. destruct (Z.ltb_spec lcup 2), (Z.leb_spec 2 lcup); try lia; cbn [orb andb]; [reflexivity |]. destruct (Z.ltb_spec (Z.of_nat (length buf)) lcup), (Z.leb_spec lcup (Z.of_nat (length buf))); try lia; cbn [andb]; [reflexivity |].
    rewrite !nth_byte by lia. change 15 with (Z.ones 4). rewrite Z.land_ones, Z.shiftl_mul_pow2 by lia. change (2 ^ 4) with 16. rewrite (Z.mul_comm _ 16). fold (shared_length buf lcup). set (q := shared_length buf lcup).
    destruct (Z.ltb_spec q 2), (Z.leb_spec 2 q); try lia; cbn [orb andb]; [reflexivity |]. destruct (Z.ltb_spec lcup q), (Z.leb_spec q lcup); try lia; cbn [orb andb]; [reflexivity |]. destruct (Z.ltb_spec 4079 q), (Z.leb_spec q 4079); try lia; reflexivity. }
  rewrite Sh. clear Sh.
  assert (Lk : (2 <=? lcup) && (lcup <=? Z.of_nat (length buf)) && (2 <=? shared_length buf lcup) && (shared_length buf lcup <=? lcup) && (shared_length buf lcup <=? 4079) = true <-> length_ok buf lcup).
  { unfold length_ok. rewrite !andb_true_iff, !Z.leb_le. tauto. }
  split.
  - intros K. destruct (Z.ltb_spec Mb (u32 (Mb + 1 - numbps))) as [X | X]; [reflexivity |].
    destruct (_ && _) eqn:E; [| reflexivity]. exfalso. destruct K as [K | K]; [specialize (Z2 K); lia | apply K, Lk, eq_refl].
  - intros K Q. rewrite (Z1 K). destruct (Z.ltb_spec Mb (Mb + 1 - numbps)); [lia |]. apply Lk in Q. rewrite Q. f_equal. unfold u32. rewrite Z.mod_small; lia.
Qed.

(** The whole of the decoding of a block with one pass: [Mb] is the number of
    bit-planes of the sub-band, [numbps] that of the block with the first one left
    out. *)
Theorem c74_decode : forall base buf lcup w h Mb numbps data ls N, Forall byte buf -> 1 <= Mb <= 29 -> 0 <= numbps < 2 ^ 32 -> 1 <= w -> 1 <= h ->
  64 * ((w + 3) / 4) * ((h + 1) / 2) + 16 <= Z.of_nat N ->
  let scup := shared_length buf lcup in let res := cup_decode base buf lcup w h Mb numbps data ls in
  (~ (1 <= numbps <= Mb + 1) \/ ~ length_ok buf lcup -> res = Some None) /\
  (1 <= numbps <= Mb + 1 -> length_ok buf lcup -> fwd_tidy false (seg buf 0 (lcup - scup)) -> vlc_tidy (bseg buf (lcup - 2) (scup - 1)) ->
   (mel_init base buf lcup scup = Some None /\ res = Some None) \/
   exists r, block_spec vlc_tbl0 vlc_tbl1 w h (Mb + 2 - numbps) (streams buf lcup scup N) = Some r /\
    match r with
    | None => res = Some None
    | Some L => exists f, res = Some (Some f) /\
        (forall x y, 0 <= x < w -> 0 <= y < h -> f (y * w + x) = value numbps (sample_at L x y)) /\ (forall j, ~ 0 <= j < w * h -> f j = data j)
    end).
Proof.
  intros base buf lcup w h Mb numbps data ls N B M R W H HN scup res. destruct (decode_eq base buf lcup w h Mb numbps data ls B ltac:(lia) R) as (D1 & D2). split; [exact D1 |].
  intros K Q T1 T2. unfold res. rewrite (D2 K Q). destruct Q as (Q1 & Q2 & Q3). apply block_ok; try assumption; lia.
Qed.
Print Assumptions c74_decode.

(** The first values of the memory. *)
Definition shown (r : option (option (Z -> Z))) (n : nat) : option (option (list Z)) := option_map (option_map (fun f => map (fun k => f (Z.of_nat k)) (seq 0 n))) r.

(** Not for sub-bands of thirty bit-planes, the most that are accepted: the
    coded sample is positive, the decoded one is negative. *)
Theorem c74_deep_refuted : exists buf lcup w h Mb numbps data ls L mu, Forall byte buf /\ Mb = 30 /\ 1 <= numbps <= Mb + 1 /\ length_ok buf lcup /\
  fwd_tidy false (seg buf 0 (lcup - shared_length buf lcup)) /\ vlc_tidy (bseg buf (lcup - 2) (shared_length buf lcup - 1)) /\
  block_spec vlc_tbl0 vlc_tbl1 w h (Mb + 2 - numbps) (streams buf lcup (shared_length buf lcup) 80) = Some (Some L) /\ sample_at L 0 0 = Some (false, mu) /\ 0 < mu /\
  exists f, cup_decode 0 buf lcup w h Mb numbps data ls = Some (Some f) /\ f 0 = - 2 ^ 30.
Proof.
  exists [0; 0; 0x63; 0], 4, 1, 1, 30, 31, (fun _ => 0), (fun _ => 0). do 2 eexists. split; [repeat constructor; unfold byte; lia |]. split; [reflexivity |]. split; [lia |].
  split; [lazy; intuition discriminate |]. split; [lazy; intuition discriminate |]. split; [lazy; intuition discriminate |].
  split; [vm_compute; reflexivity |]. split; [vm_compute; reflexivity |]. split; [lia |].
  assert (E : shown (cup_decode 0 [0; 0; 0x63; 0] 4 1 1 30 31 (fun _ => 0) (fun _ => 0)) 1 = Some (Some [- 2 ^ 30])) by (vm_compute; reflexivity).
  destruct (cup_decode 0 [0; 0; 0x63; 0] 4 1 1 30 31 (fun _ => 0) (fun _ => 0)) as [[f |] |]; [| discriminate | discriminate]. exists f. split; [reflexivity |]. unfold shown in E. cbn [option_map map seq Z.of_nat] in E. injection E as E. exact E.
Qed.
Print Assumptions c74_deep_refuted.

(** Four samples, one of them next to the block in memory. *)
Example c74_four : shown (cup_decode 0 [0x55; 0x8A; 11; 34; 0xB4; 0] 6 2 2 8 3 (fun _ => 7) (fun _ => 9)) 5 = Some (Some [-28; -44; 20; -60; 7]).
Proof. vm_compute. reflexivity. Qed.
Example c74_out : shown (cup_decode 0 [0; 0; 0x53; 0] 4 1 1 8 3 (fun _ => 7) (fun _ => 9)) 2 = Some None.
Proof. vm_compute. reflexivity. Qed.
