(** The round trip of a code-block. *)

From Coq Require Import ZArith List Lia Bool.
From Verif Require Import Ints I32 Mem MqModel MqProofs MqSync MqEnd MqProps T2CodesModel T2PacketModel T1Luts T1Model T1Spec T1Bits T1Rel T1Enc T1Stage T1Dec T1Code T1Block.
From Verif Require Import Ints.
Import ListNotations.
Local Open Scope Z_scope.

(** The planes of a coefficient that are known when [l] passes are left. *)
Definition plane_known (l q : Z) : Prop := (l + 2) / 3 - 1 <= q <= (l + 2) / 3 /\ (l mod 3 = 0 -> q = l / 3).

Lemma stage_levels : forall B p t s, -1 <= p -> 0 <= t < 3 -> stage B p t s -> forall x y, inside B x y = true -> plane_known (left p t) (level s x y).
Proof.
  intros B p t s Hp Ht H x y Hin. specialize (H x y Hin). unfold plane_known, left.
  assert (E : (3 * p + 3 - t + 2) / 3 = p + 1 /\ ((3 * p + 3 - t) mod 3 = 0 -> t = 0 /\ (3 * p + 3 - t) / 3 = p + 1)).
  { assert (t = 0 \/ t = 1 \/ t = 2) as [-> | [-> | ->]] by lia.
    - split; [symmetry; apply (Z.div_unique _ 3 _ 2); lia |]. intros _. split; [reflexivity |]. symmetry. apply (Z.div_unique _ 3 _ 0); lia.
    - split; [symmetry; apply (Z.div_unique _ 3 _ 1); lia |]. intros C. assert (E : (3 * p + 3 - 1) mod 3 = 2) by (symmetry; apply (Z.mod_unique _ 3 p); lia). lia.
    - split; [symmetry; apply (Z.div_unique _ 3 _ 0); lia |]. intros C. assert (E : (3 * p + 3 - 2) mod 3 = 1) by (symmetry; apply (Z.mod_unique _ 3 p); lia). lia. }
  destruct E as [E1 E2]. rewrite E1. destruct (Z.eqb_spec t 0) as [T0 | T0].
  - destruct H as (_ & _ & ->). split; [lia |]. intros M. destruct (E2 M) as [_ ->]. reflexivity.
  - split.
    + destruct (Z.eqb_spec t 1); destruct H as (_ & ->); [destruct (visited s x y) | destruct (visited s x y || significant s x y)]; lia.
    + intros M. destruct (E2 M). contradiction.
Qed.

Lemma trim_length : forall data c l, trim_rates data c = Some l -> length l = length c.
Proof.
  intros data c. induction c as [| r c IH]; intros l H; cbn [trim_rates] in H; [injection H as <-; reflexivity |].
  destruct (r <=? 0); [discriminate |]. destruct (trim_rates data c) as [l1 |]; [| discriminate]. injection H as <-. cbn [length]. f_equal. apply IH. reflexivity.
Qed.
Lemma cap_length : forall rates N, length (fst (cap_rates rates N)) = length rates.
Proof.
  intros rates N. induction rates as [| r l IH]; cbn [cap_rates]; [reflexivity |]. destruct (cap_rates l N) as [c last]. cbn [fst] in IH. destruct (last <? r); cbn [fst length]; congruence.
Qed.
Lemma pieces_length : forall B sty n k p t s, -1 <= p -> 0 <= t < 3 -> 0 <= left p t <= Z.of_nat k -> Z.of_nat (length (pieces B sty n k p t s)) = left p t.
Proof.
  intros B sty n k. induction k as [| k IH]; intros p t s Hp Ht Hl; [cbn [pieces length]; lia |]. cbn [pieces]. destruct (Z.ltb_spec p 0) as [L | L]; [cbn [length]; unfold left in *; lia |].
  cbn [length]. rewrite Nat2Z.inj_succ. rewrite IH; unfold left, after_pass in *; destruct (Z.eqb_spec (t + 1) 3); cbn [fst snd]; lia.
Qed.

Theorem block_trip : forall start w h orient sty x m k r mem j,
  1 <= w -> 1 <= h -> w * h <= 4096 -> 0 <= orient < 4 -> (forall i j, 0 <= i < w -> 0 <= j < h -> in_i32 (x i j)) ->
  bytes m -> m (start - 1) <> 255 -> encode_cblk start w h orient sty (stripe_order w h x) m = Some k ->
  0 <= r -> r = 0 \/ styled sty CBLKSTY_LAZY = false -> r + (if k_numbps k <? 2 ^ 31 then k_numbps k else 0) <= 30 ->
  let segs := segments 0 0 (k_rates k) (k_terms k) in
  (forall i, 0 <= i < bytes_of (firstn j segs) -> mem i = nth (Z.to_nat i) (k_data k) 0) ->
  let left := Z.of_nat (length (k_rates k)) - passes_of (firstn j segs) in
  exists v, decode_cblk w h orient r sty (k_numbps k) true (firstn j segs) mem = Some v /\ bytes_of (firstn j segs) <= Z.of_nat (length (k_data k)) /\
    ((length segs <= j)%nat -> left = 0) /\
    forall a b, 0 <= a < w -> 0 <= b < h -> exists q, plane_known left q /\ v (b * w + a) = known_value r (coded_magnitude (x a b)) (x a b <? 0) q.
Proof.
  intros start w h orient sty x m k r mem j Hw Hh Hs Ho Hx Hb Hm E Hr Hraw Hrn segs Hmem lf.
  set (n := planes w h x) in *. destruct (planes_cases w h x Hw Hh Hx) as [(P1 & P2 & _) | (P1 & P2)]; fold n in P1, P2.
  - destruct (encode_shape start w h orient sty x m Hw Hh Hs Ho Hx Hb Hm P1) as (K & HK & E'). cbv zeta in E'. rewrite E in E'. clear E.
    pose proof (played_ok start w h orient sty x m Hw Hh Hs Ho Hx Hb Hm K P1 HK) as (R1 & R2 & R3 & R4 & R5).
    set (pl := played start w h orient sty x m (S K)) in *. set (data := bytes_at (buf (snd pl)) start (bp (snd pl) - start)) in *.
    destruct (trim_rates data (fst (cap_rates (fst pl) (bp (snd pl) - start)))) as [rs |] eqn:Et; [| discriminate]. assert (Ek : k = mkCoded n rs (map ends_of (plan w h orient sty x (S K))) data) by (injection E'; intros ->; reflexivity). subst k. cbn [k_numbps k_rates k_terms k_data] in *.
    assert (Hd : forall i, 0 <= i < bp (snd pl) - start -> nth (Z.to_nat i) data 0 = buf (snd pl) (start + i)) by (intros i Hi; apply nth_bytes, Hi).
    destruct (trimmed_segments start (styled sty CBLKSTY_RESET) (buf (snd pl)) (bp (snd pl)) data Hd (plan w h orient sty x (S K)) start reset_ctxs [] (fst pl) _ rs 0 0 R5 ltac:(lia) eq_refl Et) as [Es _].
    fold n in Hrn. destruct (Z.ltb_spec n (2 ^ 31)); [| lia].
    set (B := block_of w h orient sty x) in *. assert (G : good B) by (split; [exact Hw | split; [exact Hh | exact Ho]]).
    assert (Hmag : forall a b, inside B a b = true -> 0 <= magnitude B a b < 2 ^ n) by (intros a b I; apply inside_bounds in I; cbn [B block_of magnitude]; apply P2; apply I).
    assert (Hseg : segs = segments (start - start) (Z.of_nat (@length (list sym) [])) (fst pl) (map ends_of (pieces B sty n (S K) (n - 1) 2 (initial n)))).
    { unfold segs. rewrite Es. rewrite Z.sub_diag. reflexivity. }
    assert (HT : trace B sty n (is_raw sty n (n - 1) 2) [] (n - 1) 2 (initial n) (n - 1) 2 (initial n)) by (split; [reflexivity | split; reflexivity]).
    assert (Ld : Z.of_nat (length data) = bp (snd pl) - start) by (unfold data, bytes_at; rewrite map_length, seq_length; lia).
    assert (Sb : bytes_of (firstn j segs) <= bp (snd pl) - start).
    { unfold segs. rewrite Es. pose proof (segments_bytes _ _ _ _ _ _ _ _ _ 0 j R5) as Sb. rewrite Z.sub_diag in Sb. lia. }
    destruct (segments_dec B sty n r G eq_refl ltac:(lia) Hr Hrn Hmag Hraw start (buf (snd pl)) (bp (snd pl)) R3 (S K) (n - 1) 2 (initial n) [] (n - 1) 2 (initial n) start reset_ctxs (fst pl)
                (init_flags w h) (fun _ => 0) mem j ltac:(lia) ltac:(lia) ltac:(unfold left; lia) ltac:(lia) ltac:(lia) HT ltac:(intros C; congruence) R5 ltac:(lia)) as (v & p' & t' & s' & D1 & D2 & D3 & D4 & D5 & D6 & D7).
    { rewrite <- Hseg. intros i Hi. rewrite Hmem by lia. rewrite Hd by lia. f_equal. lia. }
    { intros q. split; [apply (init_ok B n G) |]. intros a b I. cbn [d_v initial level]. symmetry. apply known_zero. rewrite Z.shiftr_div_pow2 by lia. apply Z.div_small, Hmag, I. }
    { apply (initial_stage B (n - 1)) ; [replace (n - 1 + 1) with n by lia; exact Hmag | lia] || (replace n with (n - 1 + 1) at 2 by lia; apply initial_stage; [replace (n - 1 + 1) with n by lia; exact Hmag | lia]). }
    rewrite <- Hseg in D1, D4, D7.
    assert (Hlen : Z.of_nat (length rs) = left (n - 1) 2).
    { rewrite (trim_length _ _ _ Et), cap_length, (segments_len _ _ _ _ _ _ _ _ _ R5). apply pieces_length; unfold left; lia. }
    exists v. split; [| split; [| split]].
    + unfold decode_cblk. assert (Eb : i32 (u32 (r + n)) = r + n) by (unfold u32; rewrite Z.mod_small by lia; apply i32_id; unfold in_i32; lia). rewrite Eb.
      destruct (Z.leb_spec 31 (r + n)); [lia |]. cbn [negb]. replace (r + n) with (r + (n - 1) + 1) by lia. rewrite Z.sub_diag in D1. exact D1.
    + lia.
    + intros Hj. unfold lf. rewrite Hlen, <- D4. apply D7, Hj.
    + intros a b Ha Hb'. assert (I : inside B a b = true) by (apply inside_true; assumption). exists (level s' a b). split.
      * unfold lf. rewrite Hlen, <- D4. apply (stage_levels B p' t' s' D5 D6 D3 a b I).
      * apply (D2 a b I).
  - destruct (encode_nothing start w h orient sty x m Hw Hh Hx Hm) as (N & E' & HN); [fold n; lia |].
    rewrite E in E'. injection E' as ->. cbn [k_numbps k_rates k_terms k_data] in *. assert (El : lf = 0) by (unfold lf, segs; cbn [segments]; rewrite firstn_nil; reflexivity). rewrite El. unfold segs. cbn [segments]. rewrite firstn_nil.
    exists (fun _ => 0). split; [| split; [cbn; lia | split]].
    + unfold decode_cblk. assert (Hi : i32 (u32 (r + N)) <= 30).
      { destruct HN as [-> | HN].
        - change (0 <? 2 ^ 31) with true in Hrn. cbv iota in Hrn. unfold u32. rewrite Z.mod_small by lia. rewrite i32_id by (unfold in_i32; lia). lia.
        - destruct (Z.ltb_spec N (2 ^ 31)); [lia |]. unfold i32, u32.
          destruct (Z_lt_ge_dec (r + N) (2 ^ 32)) as [L | L].
          + rewrite (Z.mod_small (r + N)) by lia. replace (r + N + 2 ^ 31) with ((r + N - 2 ^ 31) + 1 * 2 ^ 32) by lia. rewrite Z.mod_add, Z.mod_small by lia. lia.
          + replace (r + N) with ((r + N - 2 ^ 32) + 1 * 2 ^ 32) at 1 by lia. rewrite Z.mod_add, (Z.mod_small (r + N - 2 ^ 32)) by lia. rewrite Z.mod_small by lia. lia. }
      destruct (Z.leb_spec 31 (i32 (u32 (r + N)))); [lia | reflexivity].
    + intros _. reflexivity.
    + intros a b Ha Hb'. exists 0. split; [split; [cbn; lia | reflexivity] |]. rewrite P2 by assumption. reflexivity.
Qed.
