(** C68, C69: the readers of the MagSgn, SPP, VLC and MRP segments of a
    high-throughput code-block deliver the bits of the segment without the stuffed
    ones. *)

From Coq Require Import ZArith List Bool Lia.
From Verif Require Import Ints HtModel HtSpec HtBits HtForward HtBackward.
Import ListNotations.
Local Open Scope Z_scope.

(** ** Forward *)

(** No byte after 255 has its highest bit set. *)
Fixpoint fwd_tidy (after : bool) (l : list Z) : Prop :=
  match l with [] => True | d :: l => (after = true -> d < 128) /\ fwd_tidy (d =? 255) l end.

(** The words got, when each step takes the number of bits given. *)
Fixpoint frwd_words (buf : list Z) (f : frwd) (ns : list Z) : option (list Z) :=
  match ns with
  | [] => Some []
  | n :: ns =>
      match frwd_fetch buf f with
      | None => None
      | Some (w, f) =>
          match frwd_advance f n with
          | None => None
          | Some f => match frwd_words buf f ns with Some l => Some (w :: l) | None => None end
          end
      end
  end.
Definition forward (base : Z) (buf : list Z) (data size X : Z) (ns : list Z) : option (list Z) :=
  match frwd_init base buf data size X with Some f => frwd_words buf f ns | None => None end.

Lemma byte_bit7 : forall d, byte d -> Z.testbit d 7 = true -> 128 <= d.
Proof.
  intros d D T. destruct (Z.lt_ge_cases d 128) as [L | L]; [| exact L]. rewrite (small_high d 7) in T by (unfold byte in D; lia). discriminate.
Qed.
Lemma fwd_clean_fill : forall N X u, X = 0 \/ X = 255 -> fclean u (repeat X N).
Proof.
  induction N as [| N IH]; intros X u H; cbn [repeat clean]; [exact I |]. split; [| apply IH, H]. intros _ T. destruct H as [-> | ->]; [discriminate |].
  destruct N; [exact I | reflexivity].
Qed.
Lemma fwd_clean : forall l N X u, Forall byte l -> X = 0 \/ X = 255 -> fwd_tidy u l -> fclean u (l ++ repeat X N).
Proof.
  induction l as [| d l IH]; intros N X u B H T; [apply fwd_clean_fill, H |]. inversion B as [| ? ? Bd Bl]; subst. destruct T as (T1 & T2). cbn [app clean].
  split; [| apply IH; assumption]. intros U T. specialize (T1 U). pose proof (byte_bit7 d Bd T). lia.
Qed.
Lemma frwd_words_ok : forall buf ns f rest S, Forall byte buf -> Forall (fun n => 0 <= n <= 32) ns -> fholds buf f rest S -> (8 * length ns <= length rest)%nat ->
  frwd_words buf f ns = Some (words S ns).
Proof.
  intros buf. induction ns as [| n ns IH]; intros f rest S B Hn H L; [reflexivity |]. inversion Hn as [| ? ? N1 N2]; subst. cbn [length] in L.
  cbn [frwd_words words]. destruct (frwd_fetch_ok buf f rest S B H ltac:(lia)) as (f1 & r1 & E1 & H1 & L1 & B1). rewrite E1.
  destruct (frwd_advance_ok buf f1 r1 S n H1 ltac:(lia)) as (f2 & E2 & H2). rewrite E2. rewrite (IH f2 r1 _ B N2 H2 ltac:(lia)). reflexivity.
Qed.

(** The bits of the segment, then those of bytes [X] without end ([N] of them are
    enough); nothing is read outside the bytes, no [assert!] fails. *)
Theorem c68_forward : forall base buf data size X ns N, Forall byte buf -> X = 0 \/ X = 255 -> 0 <= data -> 0 <= size -> data + size <= Z.of_nat (length buf) ->
  Forall (fun n => 0 <= n <= 32) ns -> (8 * length ns + 8 <= N)%nat -> fwd_tidy false (seg buf data size) ->
  forward base buf data size X ns = Some (words (fwd_bits false (seg buf data size ++ repeat X N)) ns).
Proof.
  intros base buf data size X ns N B HX D Sz R Hn HN T. unfold forward.
  assert (Bs : Forall byte (seg buf data size)).
  { unfold seg. rewrite Forall_forall in B |- *. intros d Hd. apply B. rewrite <- (firstn_skipn (Z.to_nat data) buf). apply in_or_app. right.
    rewrite <- (firstn_skipn (Z.to_nat size)). apply in_or_app. left. exact Hd. }
  destruct (frwd_init_ok base buf data size X N B HX D Sz R ltac:(lia) (fwd_clean _ _ _ _ Bs HX T)) as (f & rest & E & H & L). rewrite E.
  apply (frwd_words_ok buf ns f rest _ B Hn H). lia.
Qed.
Print Assumptions c68_forward.

(** Not if a byte after 255 has its highest bit set: that bit is not left out,
    but changes the one after it. *)
Theorem c68_untidy_refuted : exists buf ns, Forall byte buf /\ Forall (fun n => 0 <= n <= 32) ns /\
  forall N, (16 <= N)%nat -> forward 0 buf 0 (Z.of_nat (length buf)) 0 ns <> Some (words (fwd_bits false (buf ++ repeat 0 N)) ns).
Proof.
  exists [255; 128; 0], [8]. split; [repeat constructor; unfold byte; lia |]. split; [repeat constructor; lia |].
  intros N HN. do 16 (destruct N as [| N]; [lia |]). cbn [repeat app]. vm_compute. congruence.
Qed.
Print Assumptions c68_untidy_refuted.

(** 255 then 127: fifteen ones, then eight zeros, then 1 and seven zeros, then
    ones from the fill. *)
Example c68_ones : forward 1 [255; 127; 0; 1] 0 4 255 [15; 8; 32] = Some [0x80807FFF; 0xFFFF0100; 0xFFFFFF01].
Proof. reflexivity. Qed.
Example c68_zeros : forward 2 [9; 255; 127; 3; 9] 1 3 0 [4; 32; 7] = Some [0x1FFFF; 0x1FFF; 0].
Proof. reflexivity. Qed.

(** ** Backward *)

(** In the order of reading, no 255 comes after a byte of more than 143. *)
Fixpoint bwd_tidy (after : bool) (l : list Z) : Prop :=
  match l with [] => True | d :: l => (after = true -> d <> 255) /\ bwd_tidy (143 <? d) l end.
(** For VLC the lower half of the first byte is taken to be ones, and the upper
    half is not all ones. *)
Definition vlc_tidy (l : list Z) : Prop := match l with [] => True | d :: l => d < 240 /\ bwd_tidy (143 <? 16 * (d / 16) + 15) l end.

(** What is seen: 32 bits at the begin of each turn, and after each step the bits
    left of those. *)
Fixpoint rev_steps (v : rev_st) (left : Z) (ns : list Z) : option (list Z * rev_st) :=
  match ns with
  | [] => Some ([], v)
  | n :: ns =>
      match rev_advance v n with
      | None => None
      | Some (w, v) => match rev_steps v (left - n) ns with Some (l, v) => Some (w mod 2 ^ (left - n) :: l, v) | None => None end
      end
  end.
Fixpoint rev_turns (buf : list Z) (v : rev_st) (turns : list (list Z)) : option (list (list Z)) :=
  match turns with
  | [] => Some []
  | ns :: turns =>
      match rev_fetch buf v with
      | None => None
      | Some (w, v) =>
          match rev_steps v 32 ns with
          | None => None
          | Some (l, v) => match rev_turns buf v turns with Some r => Some ((w :: l) :: r) | None => None end
          end
      end
  end.
Definition vlc (base : Z) (buf : list Z) (lcup scup : Z) (turns : list (list Z)) : option (list (list Z)) :=
  match rev_init base buf lcup scup with Some v => rev_turns buf v turns | None => None end.
Definition mrp (base : Z) (buf : list Z) (lcup len2 : Z) (turns : list (list Z)) : option (list (list Z)) :=
  match rev_init_mrp base buf lcup len2 with Some v => rev_turns buf v turns | None => None end.

(** A turn takes at most 32 bits. *)
Definition turn_ok (ns : list Z) : Prop := Forall (fun n => 0 <= n) ns /\ total ns <= 32.

Lemma bwd_clean : forall l N u, Forall byte l -> bwd_tidy u l -> bclean u (l ++ repeat 0 N).
Proof.
  induction l as [| d l IH]; intros N u B T.
  - clear. revert u. induction N as [| N IH]; intros u; cbn [app repeat clean]; [exact I |]. split; [| apply IH]. intros _ X. discriminate.
  - inversion B as [| ? ? Bd Bl]; subst. destruct T as (T1 & T2). cbn [app clean]. split; [| apply IH; assumption]. intros U X. exfalso.
    rewrite stuffed_eq in U. apply andb_prop in U. destruct U as (U & E). apply T1; [exact U |]. apply Z.eqb_eq in E. pose proof (byte_bit7 d Bd X) as G. unfold byte in Bd.
    pose proof (Z.div_mod d 128 ltac:(lia)). assert (d / 128 = 1) by (symmetry; apply Z.div_unique with (d - 128); lia). lia.
Qed.
Lemma skip_twice : forall (A : Type) m n (l : list A), skipn m (skipn n l) = skipn (m + n) l.
Proof. intros A m n. revert m. induction n as [| n IH]; intros m l; [rewrite Nat.add_0_r; reflexivity |]. rewrite Nat.add_succ_r. destruct l; [destruct m; reflexivity | apply IH]. Qed.
Lemma total_nonneg : forall ns, Forall (fun n => 0 <= n) ns -> 0 <= total ns.
Proof. induction 1; cbn [total fold_right]; [lia |]. unfold total in IHForall. lia. Qed.
Lemma rev_steps_ok : forall buf ns v left rest S, Forall (fun n => 0 <= n) ns -> total ns <= left -> left <= 32 -> bholds buf v rest S -> left <= v_bits v ->
  exists v', rev_steps v left ns = Some (seen S left ns, v') /\ bholds buf v' rest (skipn (Z.to_nat (total ns)) S).
Proof.
  intros buf. induction ns as [| n ns IH]; intros v left rest S Hn T L H Bi.
  { exists v. split; [reflexivity | exact H]. }
  inversion Hn as [| ? ? N1 N2]; subst. pose proof (total_nonneg ns N2) as P. cbn [total fold_right] in T. fold (total ns) in T.
  destruct (rev_advance_ok buf v rest S n (left - n) H N1 ltac:(lia) ltac:(lia)) as (w & v1 & E1 & H1 & B1 & W1). cbn [rev_steps seen]. rewrite E1.
  destruct (IH v1 (left - n) rest _ N2 ltac:(lia) ltac:(lia) H1 ltac:(lia)) as (v2 & E2 & H2). rewrite E2, W1. exists v2. split; [reflexivity |].
  rewrite skip_twice in H2. cbn [total fold_right]. fold (total ns). replace (Z.to_nat (n + total ns)) with (Z.to_nat (total ns) + Z.to_nat n)%nat by lia. exact H2.
Qed.
Lemma rev_turns_ok : forall buf turns v rest S, Forall byte buf -> Forall turn_ok turns -> bholds buf v rest S -> (8 * length turns <= length rest)%nat ->
  rev_turns buf v turns = Some (seen_turns S turns).
Proof.
  intros buf. induction turns as [| ns turns IH]; intros v rest S B Ht H L; [reflexivity |]. inversion Ht as [| ? ? (T1 & T2) T3]; subst. cbn [length] in L.
  cbn [rev_turns seen_turns]. destruct (rev_fetch_ok buf v rest S B H ltac:(lia)) as (v1 & r1 & E1 & H1 & L1 & B1). rewrite E1.
  destruct (rev_steps_ok buf ns v1 32 r1 S T1 T2 ltac:(lia) H1 B1) as (v2 & E2 & H2). rewrite E2. rewrite (IH v2 r1 _ B T3 H2 ltac:(lia)). reflexivity.
Qed.
Lemma bseg_bytes : forall buf data size, Forall byte buf -> Forall byte (bseg buf data size).
Proof.
  intros buf data size B. unfold bseg, seg. apply Forall_rev. rewrite Forall_forall in B |- *. intros d Hd. apply B.
  rewrite <- (firstn_skipn (Z.to_nat (data - size + 1)) buf). apply in_or_app. right. rewrite <- (firstn_skipn (Z.to_nat size)). apply in_or_app. left. exact Hd.
Qed.

(** The VLC segment: bytes [lcup - 2] down to [lcup - scup]. *)
Theorem c69_vlc : forall base buf lcup scup turns N, Forall byte buf -> 2 <= scup <= lcup -> lcup <= Z.of_nat (length buf) ->
  Forall turn_ok turns -> (8 * length turns + 8 <= N)%nat -> vlc_tidy (bseg buf (lcup - 2) (scup - 1)) ->
  vlc base buf lcup scup turns = Some (seen_turns (vlc_bits (bseg buf (lcup - 2) (scup - 1) ++ repeat 0 N)) turns).
Proof.
  intros base buf lcup scup turns N B Sc R Ht HN T. unfold vlc.
  destruct (bseg_cons buf (lcup - 2) (scup - 1) B ltac:(lia) ltac:(lia) ltac:(lia)) as (d & E1 & E2 & Bd).
  rewrite E2 in T. destruct T as (T1 & T2). replace (lcup - 2 - 1) with (lcup - 3) in T2 by lia. replace (scup - 1 - 1) with (scup - 2) in T2 by lia.
  destruct (rev_init_ok base buf lcup scup N B Sc R ltac:(lia)) as (v & rest & E & H & L).
  - exists d. split; [exact E1 |]. split; [exact T1 |]. apply bwd_clean; [apply bseg_bytes, B | exact T2].
  - rewrite E. apply (rev_turns_ok buf turns v rest _ B Ht H). lia.
Qed.
Print Assumptions c69_vlc.

(** The MRP segment: bytes [lcup + len2 - 1] down to [lcup]. *)
Theorem c69_mrp : forall base buf lcup len2 turns N, Forall byte buf -> 0 <= lcup -> 0 <= len2 -> lcup + len2 <= Z.of_nat (length buf) ->
  Forall turn_ok turns -> (8 * length turns + 8 <= N)%nat -> bwd_tidy true (bseg buf (lcup + len2 - 1) len2) ->
  mrp base buf lcup len2 turns = Some (seen_turns (bwd_bits true (bseg buf (lcup + len2 - 1) len2 ++ repeat 0 N)) turns).
Proof.
  intros base buf lcup len2 turns N B L0 L2 R Ht HN T. unfold mrp.
  destruct (rev_init_mrp_ok base buf lcup len2 N B L0 L2 R ltac:(lia)) as (v & rest & E & H & L).
  - apply bwd_clean; [apply bseg_bytes, B | exact T].
  - rewrite E. apply (rev_turns_ok buf turns v rest _ B Ht H). lia.
Qed.
Print Assumptions c69_mrp.

(** Not if a 255 comes after a byte of more than 143: its highest bit changes the
    next. *)
Theorem c69_untidy_refuted : exists buf turns, Forall byte buf /\ Forall turn_ok turns /\
  forall N, (16 <= N)%nat -> mrp 0 buf 0 (Z.of_nat (length buf)) turns <> Some (seen_turns (bwd_bits true (rev buf ++ repeat 0 N)) turns).
Proof.
  exists [0; 255], [[]]. split; [repeat constructor; unfold byte; lia |]. split; [repeat constructor; cbn; lia |].
  intros N HN. do 16 (destruct N as [| N]; [lia |]). cbn [repeat app rev]. vm_compute. congruence.
Qed.
Print Assumptions c69_untidy_refuted.

(** Half byte 9 (more than 8), then 127 with seven bits, then 1. *)
Example c69_bits : vlc 3 [7; 1; 127; 0x94; 0] 5 4 [[4; 7]; [8]] = Some [[0x000FF9; 0xFF; 1]; [1; 0]].
Proof. vm_compute. reflexivity. Qed.
Example c69_fill : mrp 0 [200; 127; 3] 1 2 [[2; 8]] = Some [[0x7F03; 0x1FC0; 0x1F]].
Proof. vm_compute. reflexivity. Qed.
