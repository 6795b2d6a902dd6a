(** The shape of a coded block: its passes, rates and segments. *)

From Coq Require Import ZArith List Lia Bool.
From Verif Require Import Ints I32 Mem MqModel MqProofs MqEnd MqProps T2CodesModel T2PacketModel T2PacketProps T1Luts T1Model T1Spec T1Bits T1Rel T1Enc T1Stage T1Dec T1Code T1Block T1Trip T1Total.
From Verif Require Import Ints.
Import ListNotations.
Local Open Scope Z_scope.

(** ** Which passes there are *)

(** Table D.9: with selective bypass, the significance and refinement passes
    after the fourth bit-plane are raw. *)
Definition bypassed (sty n p t : Z) : bool := negb (Z.land sty 1 =? 0) && (p <? n - 4) && (t <? 2).
(** D.4.2 and Table D.9: every pass is terminated, or with selective bypass each
    pass before the coder changes, and always the last pass. *)
Definition terminated (sty n p t : Z) : bool :=
  negb (Z.land sty 4 =? 0) || (p =? 0) && (t =? 2)
  || negb (Z.land sty 1 =? 0) && ((p <=? n - 4) && (t =? 2) || (p <? n - 4) && (t =? 1)).
(** D.5: the segmentation symbol. *)
Definition segmentation (sty t : Z) : list (Z * Z) := if (t =? 2) && negb (Z.land sty 32 =? 0) then [(18, 1); (18, 0); (18, 1); (18, 0)] else [].

(** The passes from plane [p], type [t] on: raw, terminated, and the contexts
    and bits. *)
Fixpoint passes_from (B : block) (sty n : Z) (k : nat) (p t : Z) (s : state) : list (bool * bool * list (Z * Z)) :=
  match k with
  | O => []
  | S k => let raw := bypassed sty n p t in
           let '(s', o) := coding_pass raw B p t s in
           (raw, terminated sty n p t, o ++ segmentation sty t) :: (if t =? 2 then passes_from B sty n k (p - 1) 0 s' else passes_from B sty n k p (t + 1) s')
  end.
(** Of a block with [n] bit-planes there are 3n-2, the first a clean-up pass. *)
Definition block_passes (B : block) (sty n : Z) : list (bool * bool * list (Z * Z)) :=
  passes_from B sty n (Z.to_nat (3 * n - 2)) (n - 1) 2 (initial n).

Definition as_piece (x : bool * bool * list (Z * Z)) : piece := mkPiece (fst (fst x)) (snd (fst x)) (snd x).

Lemma bypassed_ok : forall sty n p t, 0 <= n < 2 ^ 31 -> is_raw sty n p t = bypassed sty n p t.
Proof. intros. unfold is_raw, bypassed, styled, CBLKSTY_LAZY. rewrite i32_id by (unfold in_i32; lia). destruct (Z.land sty 1 =? 0), (p <? n - 4), (t <? 2); reflexivity. Qed.
Lemma terminated_ok : forall sty n p t, 0 <= n < 2 ^ 31 -> 0 <= t < 3 -> enc_is_term sty n p t = terminated sty n p t.
Proof.
  intros sty n p t Hn Ht. unfold enc_is_term, terminated, styled, CBLKSTY_LAZY, CBLKSTY_TERMALL. rewrite i32_id by (unfold in_i32; lia).
  assert (t = 0 \/ t = 1 \/ t = 2) as [-> | [-> | ->]] by lia; cbn [Z.eqb Z.ltb Z.compare Pos.eqb Pos.compare Pos.compare_cont andb];
    destruct (Z.eqb_spec p 0), (Z.land sty 4 =? 0), (Z.land sty 1 =? 0), (Z.eqb_spec p (n - 4)), (Z.ltb_spec p (n - 4)), (Z.leb_spec p (n - 4)); try lia; reflexivity.
Qed.

Lemma pieces_passes : forall B sty n, 0 <= n < 2 ^ 31 -> forall k K p t s, -1 <= p -> 0 <= t < 3 -> Z.of_nat k = left p t -> Z.of_nat k <= Z.of_nat K ->
  pieces B sty n K p t s = map as_piece (passes_from B sty n k p t s).
Proof.
  intros B sty n Hn. induction k as [| k IH]; intros K p t s Hp Ht Hk HK.
  - cbn [passes_from map]. destruct K; [reflexivity |]. cbn [pieces]. destruct (Z.ltb_spec p 0); [reflexivity | unfold left in Hk; lia].
  - destruct K as [| K]; [lia |]. cbn [pieces passes_from]. destruct (Z.ltb_spec p 0); [unfold left in Hk; lia |].
    rewrite (bypassed_ok sty n p t Hn), (terminated_ok sty n p t Hn Ht).
    destruct (coding_pass (bypassed sty n p t) B p t s) as [s' o] eqn:E. cbn [map]. f_equal.
    + unfold as_piece, pass_out. cbn [fst snd]. rewrite E. reflexivity.
    + unfold after_pass. rewrite ?E. cbn [fst]. destruct (Z.eqb_spec t 2) as [-> | T].
      * change (2 + 1 =? 3) with true. cbn [fst snd]. apply IH; unfold left in *; lia.
      * destruct (Z.eqb_spec (t + 1) 3); [lia |]. cbn [fst snd]. apply IH; unfold left in *; lia.
Qed.

(** ** What the segments hold *)

(** The passes between terminations: raw or not, and the symbols of each. *)
Fixpoint groups (acc : list (list (Z * Z))) (ps : list (bool * bool * list (Z * Z))) : list (bool * list (list (Z * Z))) :=
  match ps with
  | [] => []
  | (raw, term, o) :: ps => if term then (raw, acc ++ [o]) :: groups [] ps else groups (acc ++ [o]) ps
  end.

(** The segments of [data] from position [from] on, of the lengths in [cuts],
    read by the MQ or raw decoder started on each with the contexts [cx] the one
    before has left, give these passes; wherever the segment is stored, and
    whatever is behind it. *)
Fixpoint readable (reset : bool) (data : Z -> Z) (from : Z) (cx : mem) (gs : list (bool * list (list (Z * Z)))) (cuts : list (Z * Z)) : Prop :=
  match gs, cuts with
  | [], [] => True
  | (raw, outs) :: gs, (len, n) :: cuts =>
      0 <= len /\ n = Z.of_nat (length outs) /\
      exists cx',
        (forall m pos, copied data m from pos len ->
         exists d, runs raw reset outs (if raw then raw_init_dec m pos len cx else init_dec m pos len cx) d /\ dctxs d = cx' /\ (forall i, finish_dec d i = m i)) /\
        readable reset data (from + len) cx' gs cuts
  | _, _ => False
  end.

Lemma laid_readable : forall start reset b e data ps from cx acc rates, (forall i, start <= i < e -> data (i - start) = b i) -> start <= from ->
  laid start reset b e from cx acc (map as_piece ps) rates ->
  readable reset data (from - start) cx (groups acc ps) (segments (from - start) (Z.of_nat (length acc)) rates (map (fun x => snd (fst x)) ps)).
Proof.
  intros start reset b e data. induction ps as [| [[raw term] o] ps IH]; intros from cx acc rates Hd Hf H; cbn [map laid] in H; (destruct rates as [| r rates]; try contradiction); cbn [map groups segments fst snd]; [exact I |].
  cbn [as_piece ends_of raw_of out_of fst snd] in H. unfold sym in *. destruct term.
  - destruct H as (H1 & _ & cx' & H2 & H3). cbn [readable]. pose proof (laid_le _ _ _ _ _ _ _ _ _ H3) as Le. split; [lia |]. split; [rewrite app_length; cbn [length]; lia |]. exists cx'. split.
    + intros m pos C. specialize (H2 m pos). replace (start + r - from) with (r - (from - start)) in H2 by lia. apply H2. intros i Hi. rewrite (C i Hi). rewrite <- (Hd (from + i)) by lia. f_equal. lia.
    + specialize (IH (start + r) cx' [] rates Hd ltac:(lia) H3). cbn [length] in IH. replace (from - start + (r - (from - start))) with r by lia. replace (start + r - start) with r in IH by lia. exact IH.
  - destruct H as (_ & H). specialize (IH from cx (acc ++ [o]) rates Hd Hf H). rewrite app_length in IH. cbn [length] in IH. replace (Z.of_nat (length acc + 1)) with (Z.of_nat (length acc) + 1) in IH by lia. exact IH.
Qed.

(** ** The last rate *)

Lemma run_last : forall start pterm reset ps prev s P, ends_of (last ps P) = true -> ps <> [] ->
  last (fst (run start pterm reset prev ps s)) 0 = u32 (numbytes start (snd (run start pterm reset prev ps s))).
Proof.
  intros start pterm reset. induction ps as [| Q ps IH]; intros prev s P He Hne; [contradiction |]. cbn [run].
  destruct (turn start pterm reset prev Q s) as [s1 rate] eqn:E. specialize (IH (ends_of Q) s1 P). destruct (run start pterm reset (ends_of Q) ps s1) as [rates s2] eqn:E2.
  destruct ps as [| Q' ps].
  - cbn [run] in E2. injection E2 as <- <-. cbn [fst snd last] in *. unfold turn in E. rewrite He in E. injection E as <- <-. unfold numbytes. rewrite (proj1 (wipe_bp _ _)). reflexivity.
  - assert (N : rates <> []). { cbn [run] in E2. destruct (turn start pterm reset (ends_of Q) Q' s1) as [s3 r3]. destruct (run start pterm reset (ends_of Q') ps s3). injection E2 as <- <-. discriminate. }
    cbn [fst snd] in IH |- *. cbn [last]. destruct rates; [contradiction |]. apply IH; [exact He | discriminate].
Qed.

Lemma passes_last : forall B sty n k p t s, 0 <= t < 3 -> Z.of_nat k = left p t -> (0 < k)%nat -> snd (fst (last (passes_from B sty n k p t s) (false, false, []))) = true.
Proof.
  intros B sty n. induction k as [| k IH]; intros p t s Ht Hk K0; [lia |]. cbn [passes_from]. destruct (coding_pass (bypassed sty n p t) B p t s) as [s' o].
  destruct k as [| k].
  - unfold left in Hk. assert (E : t = 2 /\ p = 0) by lia. destruct E as [-> ->]. cbn [Z.eqb passes_from last fst snd]. unfold terminated. rewrite !Z.eqb_refl. cbn [andb]. rewrite orb_true_r. reflexivity.
  - assert (Ne : forall p t s, exists a l, passes_from B sty n (S k) p t s = a :: l).
    { intros p0 t0 s0. cbn [passes_from]. destruct (coding_pass (bypassed sty n p0 t0) B p0 t0 s0). eexists. eexists. reflexivity. }
    destruct (Z.eqb_spec t 2) as [-> | T].
    + destruct (Ne (p - 1) 0 s') as (a & l & E). specialize (IH (p - 1) 0 s' ltac:(lia) ltac:(unfold left in *; lia) ltac:(lia)). rewrite E in *. exact IH.
    + destruct (Ne p (t + 1) s') as (a & l & E). specialize (IH p (t + 1) s' ltac:(lia) ltac:(unfold left in *; lia) ltac:(lia)). rewrite E in *. exact IH.
Qed.
Lemma passes_count : forall B sty n k p t s, length (passes_from B sty n k p t s) = k.
Proof.
  intros B sty n. induction k as [| k IH]; intros p t s; [reflexivity |]. cbn [passes_from]. destruct (coding_pass (bypassed sty n p t) B p t s) as [s' o]. cbn [length]. f_equal. destruct (t =? 2); apply IH.
Qed.

Lemma cap_last : forall rates N, rates <> [] -> last rates 0 = N -> last (fst (cap_rates rates N)) 0 = N.
Proof.
  intros rates N. induction rates as [| r l IH]; intros Hne H; [contradiction |]. cbn [cap_rates]. pose proof (cap_length l N) as Le.
  destruct (cap_rates l N) as [c lst] eqn:E. cbn [fst] in *. destruct l as [| r' l].
  - cbn [cap_rates] in E. injection E as <- <-. cbn [last] in *. subst. rewrite Z.ltb_irrefl. reflexivity.
  - destruct c as [| c0 c]; [discriminate |]. destruct (lst <? r); apply IH; try discriminate; exact H.
Qed.
Lemma trim_last : forall data c l N, trim_rates data c = Some l -> c <> [] -> last c 0 = N -> nth (Z.to_nat (N - 1)) data 0 <> 255 -> last l 0 = N.
Proof.
  intros data c. induction c as [| r c IH]; intros l N H Hne Hl Hd; [contradiction |]. cbn [trim_rates] in H. destruct (r <=? 0); [discriminate |].
  destruct (trim_rates data c) as [l1 |] eqn:E; [| discriminate]. injection H as <-. destruct c as [| r' c].
  - cbn [trim_rates] in E. injection E as <-. cbn [last] in *. subst. destruct (Z.eqb_spec (nth (Z.to_nat (N - 1)) data 0) 255); [contradiction | reflexivity].
  - pose proof (trim_length _ _ _ E) as Le. destruct l1 as [| l0 l1]; [discriminate |]. specialize (IH (l0 :: l1) N eq_refl ltac:(discriminate) Hl Hd). exact IH.
Qed.

Lemma last_nth : forall (l : list Z) d, last l d = nth (length l - 1) l d.
Proof. intros l d. induction l as [| a l IH]; [reflexivity |]. destruct l as [| b l]; [reflexivity |]. change (last (a :: b :: l) d) with (last (b :: l) d). rewrite IH. cbn [length]. rewrite !Nat.sub_succ, !Nat.sub_0_r. reflexivity. Qed.

(** Everything about a block with [n] bit-planes. *)
Theorem block_shape : forall start w h orient sty x m,
  1 <= w -> 1 <= h -> w * h <= 4096 -> 0 <= orient < 4 -> (forall i j, 0 <= i < w -> 0 <= j < h -> in_i32 (x i j)) ->
  bytes m -> m (start - 1) <> 255 -> 1 <= planes w h x ->
  planes w h x <= 25 ->
  let n := planes w h x in let ps := block_passes (block_of w h orient sty x) sty n in
  exists k, encode_cblk start w h orient sty (stripe_order w h x) m = Some k /\ k_numbps k = n /\
    k_terms k = map (fun P => snd (fst P)) ps /\ length (k_rates k) = length ps /\
    readable (styled sty CBLKSTY_RESET) (fun i => nth (Z.to_nat i) (k_data k) 0) 0 reset_ctxs (groups [] ps) (segments 0 0 (k_rates k) (k_terms k)) /\
    (forall i j, (i <= j < length (k_rates k))%nat -> 0 <= nth i (k_rates k) 0 <= nth j (k_rates k) 0 /\ nth j (k_rates k) 0 <= Z.of_nat (length (k_data k))) /\
    last (k_rates k) 0 = Z.of_nat (length (k_data k)) /\
    (forall i, (i < length (k_rates k))%nat -> nth i (k_rates k) 0 = 0 \/ nth (Z.to_nat (nth i (k_rates k) 0 - 1)) (k_data k) 0 <> 255) /\
    Forall (fun b => 0 <= b <= 255) (k_data k) /\
    (forall i, nth i (k_data k) 0 = 255 -> nth (S i) (k_data k) 0 <= 0x8F) /\ last (k_data k) 0 <> 255.
Proof.
  intros start w h orient sty x m Hw Hh Hs Ho Hx Hb Hm Hn1 Hn2 n ps. assert (Hn : 1 <= n <= 25) by (unfold n; lia).
  destruct (encode_total start w h orient sty x m Hw Hh Hs Ho Hx Hb Hm) as [k E]. exists k. split; [exact E |].
  destruct (encode_shape start w h orient sty x m Hw Hh Hs Ho Hx Hb Hm Hn) as (K & HK & E'). cbv zeta in E'. rewrite E in E'. clear E.
  pose proof (played_ok start w h orient sty x m Hw Hh Hs Ho Hx Hb Hm K Hn HK) as (R1 & R2 & R3 & R4 & R5).
  assert (Ep : plan w h orient sty x (S K) = map as_piece ps).
  { unfold plan, ps, block_passes. apply pieces_passes; unfold left; fold n; lia. }
  set (pl := played start w h orient sty x m (S K)) in *. set (N := bp (snd pl) - start) in *. set (data := bytes_at (buf (snd pl)) start N) in *.
  destruct (trim_rates data (fst (cap_rates (fst pl) N))) as [rs |] eqn:Et; [| discriminate].
  assert (Ek : k = mkCoded n rs (map ends_of (plan w h orient sty x (S K))) data) by (injection E'; intros ->; reflexivity). subst k. cbn [k_numbps k_rates k_terms k_data]. clear E'.
  assert (Lps : length ps = Z.to_nat (3 * n - 2)) by apply passes_count.
  assert (Ld : Z.of_nat (length data) = N) by (unfold data, bytes_at; rewrite map_length, seq_length; lia).
  assert (Hd : forall i, 0 <= i < N -> nth (Z.to_nat i) data 0 = buf (snd pl) (start + i)) by (intros i Hi; apply nth_bytes, Hi).
  assert (Eterm : map ends_of (map as_piece ps) = map (fun P => snd (fst P)) ps) by (rewrite map_map; reflexivity).
  pose proof (trimmed_segments start (styled sty CBLKSTY_RESET) (buf (snd pl)) (bp (snd pl)) data Hd (plan w h orient sty x (S K)) start reset_ctxs [] (fst pl) _ rs 0 0 R5 ltac:(lia) eq_refl Et) as [Es _].
  rewrite Ep, Eterm in *. pose proof (segments_len _ _ _ _ _ _ _ _ _ R5) as Ll. rewrite map_length in Ll.
  pose proof (trim_length _ _ _ Et) as Lt. rewrite cap_length in Lt.
  destruct R1 as [B1 _ B3 [M1 M2] B4 _].
  assert (D255 : forall i, nth i data 0 = 255 -> nth (S i) data 0 <= 143).
  { intros i Hi. destruct (Z_lt_ge_dec (Z.of_nat i) N) as [L | L]; [| rewrite nth_overflow in Hi by lia; lia].
    destruct (Z_lt_ge_dec (Z.of_nat (S i)) N) as [L1 | L1]; [| rewrite (nth_overflow _ _ (n := S i)) by lia; lia].
    rewrite <- (Nat2Z.id i), Hd in Hi by lia. rewrite <- (Nat2Z.id (S i)), Hd by lia. replace (start + Z.of_nat (S i)) with (start + Z.of_nat i + 1) by lia. apply M1; lia. }
  destruct (c20_rates data (fst pl) N rs ltac:(lia) Et) as (_ & S1 & S2).
  assert (Elast : last (fst pl) 0 = N).
  { unfold pl, played. rewrite Ep. erewrite (run_last _ _ _ _ _ _ (mkPiece false false [])).
    - rewrite <- Ep. fold (played start w h orient sty x m (S K)). fold pl. unfold numbytes. fold N. apply u32_small. lia.
    - pose proof (passes_last (block_of w h orient sty x) sty n (Z.to_nat (3 * n - 2)) (n - 1) 2 (initial n) ltac:(lia) ltac:(unfold left; lia) ltac:(lia)) as PL. fold (block_passes (block_of w h orient sty x) sty n) in PL. fold ps in PL.
      change (mkPiece false false []) with (as_piece (false, false, [])). clear - PL. induction ps as [| a l IH]; [exact PL |]. destruct l; [exact PL | apply IH, PL].
    - intros C. apply (f_equal (@length _)) in C. rewrite map_length in C. cbn [length] in C. lia. }
  assert (Nne : fst pl <> []) by (intros C; rewrite C in Ll; cbn [length] in Ll; lia).
  assert (Elast2 : last rs 0 = N).
  { apply (trim_last data _ rs N Et); [| apply cap_last; [exact Nne | exact Elast] |].
    - intros C. pose proof (cap_length (fst pl) N) as CL. rewrite C in CL. cbn [length] in CL. destruct (fst pl); [contradiction | discriminate].
    - destruct (Z_le_gt_dec N 0) as [N0 | N0]; [| rewrite Hd by lia; replace (start + (N - 1)) with (bp (snd pl) - 1) by (unfold N; lia); exact B4].
      rewrite nth_overflow by lia. lia. }
  split; [reflexivity |]. split; [reflexivity |]. split; [lia |]. split; [| split; [| split; [| split; [| split; [| split]]]]].
  - rewrite Es. rewrite <- (Z.sub_diag start) at 1 2. change (Z.of_nat (@length (list (Z * Z)) [])) with 0. 
    pose proof (laid_readable start (styled sty CBLKSTY_RESET) (buf (snd pl)) (bp (snd pl)) (fun i => nth (Z.to_nat i) data 0) ps start reset_ctxs [] (fst pl)) as LR. cbn [length] in LR. apply LR; [| lia | exact R5].
    intros i Hi. rewrite Hd by lia. f_equal. lia.
  - intros i j Hij. destruct (S1 i j Hij) as (X1 & X2 & _). rewrite Ld. split; assumption.
  - rewrite Ld. exact Elast2.
  - apply S2. intros i. destruct (Z.eq_dec (nth i data 0) 255) as [X | X]; [right; specialize (D255 i X); lia | left; exact X].
  - unfold data, bytes_at. rewrite Forall_map. apply Forall_forall. intros i _. apply B1.
  - exact D255.
  - destruct (Z_le_gt_dec N 0) as [N0 | N0]; [destruct data; [cbn; lia | cbn [length] in Ld; lia] |].
    rewrite last_nth. replace (length data - 1)%nat with (Z.to_nat (N - 1)) by lia. rewrite Hd by lia. replace (start + (N - 1)) with (bp (snd pl) - 1) by (unfold N; lia). exact B4.
Qed.

(** ** Only the coefficients inside the block matter *)

Section Alike.
  Variables B B' : block.
  Hypotheses (Hw : width B' = width B) (Hh : height B' = height B) (Hb : band B' = band B) (Hc : causal B' = causal B).
  Hypothesis Hm : forall x y, inside B x y = true -> magnitude B' x y = magnitude B x y /\ negative B' x y = negative B x y.

  Lemma inside_alike : forall x y, inside B' x y = inside B x y.
  Proof. intros. unfold inside. rewrite Hw, Hh. reflexivity. Qed.
  Lemma seen_alike : forall s x y dx dy, seen B' s x y dx dy = seen B s x y dx dy.
  Proof. intros. unfold seen. rewrite inside_alike, Hc. reflexivity. Qed.
  Lemma counts_alike : forall s x y, horizontal B' s x y = horizontal B s x y /\ vertical B' s x y = vertical B s x y /\ diagonal B' s x y = diagonal B s x y.
  Proof. intros. unfold horizontal, vertical, diagonal. rewrite !seen_alike. auto. Qed.
  Lemma context_alike : forall s x y, context_of B' s x y = context_of B s x y.
  Proof. intros. unfold context_of. destruct (counts_alike s x y) as (-> & -> & ->). rewrite Hb. reflexivity. Qed.
  Lemma any_alike : forall s x y, any_seen B' s x y = any_seen B s x y.
  Proof. intros. unfold any_seen. destruct (counts_alike s x y) as (-> & -> & ->). reflexivity. Qed.
  Lemma contribution_alike : forall s x y dx dy, contribution B' s x y dx dy = contribution B s x y dx dy.
  Proof.
    intros. unfold contribution. rewrite seen_alike. destruct (seen B s x y dx dy) eqn:E; [| reflexivity]. unfold seen in E. apply andb_true_iff in E. destruct E as [E _]. apply andb_true_iff in E.
    rewrite (proj2 (Hm _ _ (proj1 E))). reflexivity.
  Qed.
  Lemma bit_alike : forall p x y, inside B x y = true -> bit_at B' p x y = bit_at B p x y.
  Proof. intros p x y I. unfold bit_at. rewrite (proj1 (Hm x y I)). reflexivity. Qed.
  Lemma sign_alike : forall raw x y s, inside B x y = true -> code_sign raw B' x y s = code_sign raw B x y s.
  Proof. intros raw x y s I. unfold code_sign, sign_context, sign_at. rewrite !contribution_alike, (proj2 (Hm x y I)). reflexivity. Qed.
  Lemma zero_alike : forall raw p x y s, inside B x y = true -> code_zero raw B' p x y s = code_zero raw B p x y s.
  Proof. intros raw p x y s I. unfold code_zero. rewrite context_alike, (bit_alike p x y I), (sign_alike raw x y s I). reflexivity. Qed.

  Lemma steps_alike : forall l l', Forall2 (fun f g : step => forall s, f s = g s) l l' -> forall s, steps l s = steps l' s.
  Proof. intros l l' H. induction H as [| f g l l' H1 H2 IH]; intros s; cbn [steps]; [reflexivity |]. rewrite H1. destruct (g s) as [s1 o]. rewrite IH. reflexivity. Qed.
  Lemma map_alike : forall A (f g : A -> step) l, (forall a, In a l -> forall s, f a s = g a s) -> forall s, steps (map f l) s = steps (map g l) s.
  Proof. intros A f g l H. apply steps_alike. induction l as [| a l IH]; cbn [map]; constructor; [apply H; left; reflexivity | apply IH; intros; apply H; right; assumption]. Qed.

  Lemma rows_alike : forall k, rows B' k = rows B k. Proof. intros. unfold rows. rewrite Hh. reflexivity. Qed.
  Lemma columns_alike : columns B' = columns B. Proof. unfold columns. rewrite Hw, Hh. reflexivity. Qed.
  Lemma cell_inside : forall c y, In c (columns B) -> In y (rows B (fst c)) -> inside B (snd c) y = true.
  Proof. intros [k x] y H1 H2. cbn [fst snd] in *. apply columns_in in H1. apply rows_in in H2. apply inside_true; lia. Qed.

  Lemma cleanup_alike : forall p x ys s, (forall y, In y ys -> inside B x y = true) -> steps (map (cleanup_step B' p x) ys) s = steps (map (cleanup_step B p x) ys) s.
  Proof. intros p x ys s H. apply map_alike. intros y Hy s1. unfold cleanup_step. rewrite (zero_alike false p x y s1 (H y Hy)). reflexivity. Qed.
  Lemma column_alike : forall p x ys s, (forall y, In y ys -> inside B x y = true) -> cleanup_column B' p x ys s = cleanup_column B p x ys s.
  Proof.
    intros p x ys s H. unfold cleanup_column.
    assert (E1 : forallb (still B' s x) ys = forallb (still B s x) ys).
    { clear H. induction ys as [| y ys IH]; [reflexivity |]. cbn [forallb]. rewrite IH. f_equal. unfold still. rewrite any_alike. reflexivity. }
    assert (E2 : leading_zeros B' p x ys = leading_zeros B p x ys).
    { clear E1. induction ys as [| y ys IH]; [reflexivity |]. cbn [leading_zeros]. rewrite bit_alike by (apply H; left; reflexivity). rewrite IH; [reflexivity | intros; apply H; right; assumption]. }
    rewrite E1, E2, (cleanup_alike p x ys s H). destruct ((length ys =? 4)%nat && forallb (still B s x) ys); [| reflexivity].
    set (n := leading_zeros B p x ys). assert (Hs : forall y, In y (skipn n ys) -> inside B x y = true) by (intros y Hy; apply H; rewrite <- (firstn_skipn n ys); apply in_or_app; right; exact Hy).
    destruct (skipn n ys) as [| y l]; [reflexivity |]. rewrite sign_alike by (apply Hs; left; reflexivity). destruct (code_sign false B x y _) as [s1 o].
    rewrite cleanup_alike; [reflexivity |]. intros; apply Hs; right; assumption.
  Qed.

  Lemma pass_alike : forall raw p t s, coding_pass raw B' p t s = coding_pass raw B p t s.
  Proof.
    intros raw p t s. unfold coding_pass, significance_pass, refinement_pass, cleanup_pass. rewrite columns_alike. destruct (t =? 0); [| destruct (t =? 1)]; apply map_alike; intros c Hc1 s1; rewrite rows_alike.
    - apply map_alike. intros y Hy s2. pose proof (cell_inside c y Hc1 Hy) as I. unfold significance_step. rewrite any_alike, (zero_alike raw p _ _ s2 I). reflexivity.
    - apply map_alike. intros y Hy s2. pose proof (cell_inside c y Hc1 Hy) as I. unfold refinement_step, refine_context. rewrite any_alike, (bit_alike p _ _ I). reflexivity.
    - apply column_alike. intros y Hy. apply (cell_inside c y Hc1 Hy).
  Qed.
  Lemma passes_alike : forall sty n k p t s, passes_from B' sty n k p t s = passes_from B sty n k p t s.
  Proof.
    intros sty n. induction k as [| k IH]; intros p t s; [reflexivity |]. cbn [passes_from]. rewrite pass_alike. destruct (coding_pass (bypassed sty n p t) B p t s) as [s' o]. rewrite !IH. reflexivity.
  Qed.
End Alike.
