(** Proofs about tile-parts: reading arbitrary bytes (C60). *)

From Coq Require Import ZArith List Bool Lia.
From Verif Require Import Ints CioModel HdrModel PartModel PartSpec.
Import ListNotations.
Local Open Scope Z_scope.

Definition byte (b : Z) : Prop := 0 <= b < 256.

Definition ends {A} (Q : A -> Prop) (o : outcome A) : Prop :=
  match o with Done a => Q a | Fail => True | Bad => False | Fuel => False end.

Lemma u32_range : forall v, 0 <= u32 v < 2 ^ 32.
Proof. intros. unfold u32. apply Z.mod_pos_bound. reflexivity. Qed.

(** ** Streams *)

Definition good (s : stream) : Prop := 0 <= s_pos s /\ Forall byte (s_src s).
Definition adv (s s' : stream) : Prop := s_src s' = s_src s /\ s_pos s <= s_pos s'.
Definition room (s : stream) : nat := length (rest s).

Lemma room_eq : forall s, room s = (length (s_src s) - Z.to_nat (s_pos s))%nat.
Proof. intros. unfold room, rest. apply skipn_length. Qed.
Lemma adv_room : forall s s', adv s s' -> (room s' <= room s)%nat.
Proof. intros s s' [A B]. rewrite !room_eq, A. lia. Qed.
Lemma adv_good : forall s s', good s -> adv s s' -> good s'.
Proof. intros s s' [A B] [D E]. split; [lia | rewrite D; exact B]. Qed.
Lemma adv_trans : forall a b c, adv a b -> adv b c -> adv a c.
Proof. intros a b c [A B] [D E]. split; [congruence | lia]. Qed.
Lemma adv_refl : forall a, adv a a.
Proof. intros. split; [reflexivity | lia]. Qed.
#[local] Hint Resolve adv_refl : core.

Lemma byte_skipn : forall n l, Forall byte l -> Forall byte (skipn n l).
Proof. induction n as [| n IH]; intros [| x l] H; try exact H. cbn [skipn]. inversion H; subst. apply IH. assumption. Qed.
Lemma byte_firstn : forall n l, Forall byte l -> Forall byte (firstn n l).
Proof. induction n as [| n IH]; intros [| x l] H; cbn [firstn]; try constructor; inversion H; subst; [assumption | apply IH; assumption]. Qed.

Lemma take_some : forall n s b s', 0 <= n -> good s -> take n s = (Some b, s') ->
  adv s s' /\ Forall byte b /\ len b = n /\ (room s' + Z.to_nat n = room s)%nat.
Proof.
  intros n s b s' Hn [G1 G2] H. unfold take in H. destruct (Z.leb_spec n (Z.of_nat (length (rest s)))) as [L | L]; [| discriminate].
  injection H as <- <-. pose proof (room_eq s) as R. unfold room in *. split; [split; cbn; [reflexivity | lia] |].
  split; [apply byte_firstn, byte_skipn; exact G2 |]. split; [unfold len; rewrite firstn_length; lia |].
  unfold rest at 1. rewrite skipn_length. cbn [s_src s_pos]. lia.
Qed.
Lemma take_none : forall n s s', take n s = (None, s') -> adv s s'.
Proof.
  intros n s s' H. unfold take in H. destruct (n <=? Z.of_nat (length (rest s))); [discriminate |]. injection H as <-. split; cbn; [reflexivity | lia].
Qed.
Lemma skip_some : forall n s s', 0 <= n -> skip n s = Some s' -> adv s s'.
Proof.
  intros n s s' Hn H. unfold skip in H. destruct ((0 <? size_of s) && (size_of s <? s_off s + n)); [discriminate |]. injection H as <-. split; cbn; [reflexivity | lia].
Qed.

(** The offset never gains on the position. *)
Definition drift (s s' : stream) : Prop := s_pos s - s_off s <= s_pos s' - s_off s'.
Lemma take_drift : forall n s r s', take n s = (r, s') -> drift s s'.
Proof.
  intros n s r s' H. unfold take in H. unfold drift. destruct (n <=? Z.of_nat (length (rest s))); injection H as _ <-; cbn [s_pos s_off]; lia.
Qed.
Lemma skip_drift : forall n s s', skip n s = Some s' -> drift s s'.
Proof.
  intros n s s' H. unfold skip in H. destruct ((0 <? size_of s) && (size_of s <? s_off s + n)); [discriminate |]. injection H as <-. unfold drift. cbn [s_pos s_off]. lia.
Qed.

Lemma from_be_nonneg : forall l, Forall byte l -> 0 <= from_be l.
Proof.
  intros l H. unfold from_be. assert (G : forall m a, 0 <= a -> Forall byte m -> 0 <= fold_left (fun a b => Z.lor (Z.shiftl a 8) b) m a).
  { induction m as [| x m IH]; intros a Ha F; [exact Ha |]. cbn [fold_left]. inversion F as [| ? ? B F']; subst. apply IH; [| exact F'].
    apply Z.lor_nonneg. split; [apply Z.shiftl_nonneg; exact Ha | unfold byte in B; lia]. }
  apply G; [lia | exact H].
Qed.

Lemma sot_tile : forall b tile l part parts, Forall byte b -> get_sot_values b = Some (tile, l, part, parts) -> 0 <= tile.
Proof.
  intros b tile l part parts HB H. unfold get_sot_values in H. destruct (negb _); [discriminate |].
  destruct (rd 2 b) as [[x b1] |] eqn:E; [| discriminate].
  assert (0 <= x).
  { unfold rd in E. destruct (length b <? 2)%nat; [discriminate |]. assert (EX : x = from_be (firstn 2 b)) by congruence. rewrite EX. apply from_be_nonneg, byte_firstn, HB. }
  destruct (rd 4 b1) as [[? b2] |]; [| discriminate]. destruct (rd 1 b2) as [[? b3] |]; [| discriminate]. destruct (rd 1 b3) as [[? b4] |]; [| discriminate].
  injection H as <- _ _ _. assumption.
Qed.

Section Safe.
Context {C R : Type}.
Variable handle : Z -> Z -> C -> list Z -> option C.
Variable use : Z -> C -> list Z -> option R.
Variable nb : Z.
Variable wanted : Z -> bool.
Variable strict seekable : bool.

Notation tcp := (tcp C).
Notation dec := (dec C).

(** What has been read of a tile lies within its allocation. *)
Definition held (t : tcp) : Prop :=
  t_size t = len (t_bytes t) /\ match t_buf t with None => t_bytes t = [] | Some a => t_size t + 2 <= a end.
Definition sound (d : dec) : Prop := 0 <= d_cur d < nb /\ 0 <= d_len d /\ forall i, held (d_tcps d i).

Lemma read_sot_sound : forall b d d', Forall byte b -> sound d -> read_sot nb wanted b d = Some d' -> sound d'.
Proof.
  intros b d d' HB (S1 & S2 & S3) H. unfold read_sot in H. destruct (get_sot_values b) as [[[[tile l] part] parts] |] eqn:E; [| discriminate].
  pose proof (sot_tile _ _ _ _ _ HB E) as T0. destruct (Z.leb_spec nb tile); [discriminate |].
  cbv zeta in H. repeat match type of H with (if ?c then None else _) = _ => destruct c; [discriminate |] end. injection H as <-.
  unfold sound. cbn [d_cur d_len d_tcps]. split; [lia |]. split.
  - destruct (d_last d || (l =? 0)); [lia |]. apply u32_range.
  - intros i. destruct (Z.eqb_spec i tile) as [-> |]; [| apply S3]. exact (S3 tile).
Qed.

Lemma read_head_sound : forall m b d d', Forall byte b -> sound d -> read_head handle nb wanted m b d = Some d' -> sound d'.
Proof.
  intros m b d d' HB HS H. unfold read_head in H. destruct (m =? SOT); [eapply read_sot_sound; eassumption |].
  destruct (handled m); [| discriminate]. destruct (handle m (d_cur d) (t_par (d_tcps d (d_cur d))) b); [| discriminate]. injection H as <-.
  destruct HS as (S1 & S2 & S3). unfold sound. cbn [put set_tcps d_cur d_len d_tcps]. split; [exact S1 |]. split; [exact S2 |].
  intros i. destruct (Z.eqb_spec i (d_cur d)) as [-> |]; [| apply S3]. exact (S3 (d_cur d)).
Qed.

Definition after_ (s : stream) (x : dec * stream) : Prop := sound (fst x) /\ adv s (snd x).
Definition after3 {A} (s : stream) (x : A * dec * stream) : Prop := sound (snd (fst x)) /\ adv s (snd x).

Lemma heads_safe : forall fuel m d s, sound d -> good s -> (room s < fuel)%nat ->
  ends (after3 s) (read_heads handle nb wanted fuel m d s).
Proof.
  induction fuel as [| fuel IH]; intros m d s HS HG HF; [lia |]. cbn [read_heads].
  destruct (m =? SOD); [split; [exact HS | apply adv_refl] |]. destruct (left s =? 0); [split; [exact HS | apply adv_refl] |].
  destruct (take 2 s) as [[b |] s1] eqn:E1; [| exact I]. destruct (take_some 2 s b s1 ltac:(lia) HG E1) as (A1 & B1 & L1 & R1).
  cbv zeta. destruct (Z.ltb_spec (from_be b) 2); [exact I |]. pose proof (adv_good _ _ HG A1) as G1.
  destruct ((m =? 32896) && (left s1 =? 0)); [split; [exact HS | exact A1] |].
  set (d1 := if Z.land (d_state d) st_TPH =? 0 then d else set_len (u32 (d_len d - (from_be b + 2))) d).
  assert (HS1 : sound d1).
  { unfold d1. destruct (Z.land (d_state d) st_TPH =? 0); [exact HS |]. destruct HS as (S1 & S2 & S3). split; [exact S1 |]. split; [apply u32_range | exact S3]. }
  destruct (Z.land (d_state d1) (states m) =? 0); [exact I |].
  destruct (take (from_be b - 2) s1) as [[b2 |] s2] eqn:E2; [| exact I].
  destruct (take_some (from_be b - 2) s1 b2 s2 ltac:(lia) G1 E2) as (A2 & B2 & L2 & R2). pose proof (adv_good _ _ G1 A2) as G2.
  destruct (read_head handle nb wanted m b2 d1) as [d2 |] eqn:EH; [| exact I]. pose proof (read_head_sound _ _ _ _ B2 HS1 EH) as HS2.
  pose proof (adv_trans _ _ _ A1 A2) as A12.
  destruct (d_skip d2).
  - destruct (skip (d_len d2) s2) as [s3 |] eqn:EK; [| exact I]. split; [exact HS2 |]. cbn [snd].
    apply (adv_trans s s2 s3 A12). apply (skip_some _ _ _ (proj1 (proj2 HS2)) EK).
  - destruct (take 2 s2) as [[b3 |] s3] eqn:E3; [| exact I]. destruct (take_some 2 s2 b3 s3 ltac:(lia) G2 E3) as (A3 & B3 & L3 & R3).
    pose proof (IH (from_be b3) d2 s3 HS2 (adv_good _ _ G2 A3) ltac:(lia)) as K.
    destruct (read_heads handle nb wanted fuel (from_be b3) d2 s3) as [[[m' d'] s'] | | |]; try exact K.
    destruct K as [K1 K2]. split; [exact K1 |]. cbn [snd] in *. exact (adv_trans _ _ _ (adv_trans _ _ _ A12 A3) K2).
Qed.

Lemma sod_safe : forall d s, sound d -> good s -> ends (after_ s) (read_sod nb strict false d s).
Proof.
  intros d s HS HG. pose proof HS as (S1 & S2 & S3). unfold read_sod.
  destruct (Z.leb_spec 0 (d_cur d)); [| lia]. destruct (Z.ltb_spec (d_cur d) nb); [| lia]. cbn [andb negb]. cbv zeta.
  match goal with |- context [set_len ?x d] => set (l := x) end.
  assert (L0 : 0 <= l < 2 ^ 32 \/ l = d_len d).
  { unfold l. destruct (d_last d); [left; apply u32_range |]. destruct (2 <=? d_len d); [left; apply u32_range | right; reflexivity]. }
  assert (L1 : 0 <= l) by lia. clearbody l.
  destruct (Z.eqb_spec l 0); [split; [split; [exact S1 | split; [exact L1 | exact S3]] | apply adv_refl] |].
  destruct ((left s <? l) && strict); [exact I |]. destruct (Z.ltb_spec 4294967293 l); [exact I |].
  destruct (S3 (d_cur d)) as [Q1 Q2]. pose proof (Zle_0_nat (length (t_bytes (d_tcps d (d_cur d))))) as HP. unfold len in Q1.
  match goal with |- ends _ (match ?x with Some _ => _ | None => Fail end) => destruct x as [r |] eqn:ER end; [| exact I].
  assert (HR : r = t_size (d_tcps d (d_cur d)) + l + 2).
  { destruct (t_buf (d_tcps d (d_cur d))).
    - destruct (Z.ltb_spec (u32 (4294967293 - l)) (t_size (d_tcps d (d_cur d)))) as [X | X]; [discriminate |]. injection ER as <-.
      unfold u32 in *. rewrite Z.mod_small in X by lia. rewrite (Z.mod_small (t_size (d_tcps d (d_cur d)) + l)) by lia. rewrite Z.mod_small by lia. reflexivity.
    - injection ER as <-. rewrite Q2 in Q1. cbn in Q1. unfold u32. rewrite Z.mod_small by lia. lia. }
  destruct (Z.ltb_spec r (t_size (d_tcps d (d_cur d)) + l)); [lia |].
  assert (HM : t_size (d_tcps d (d_cur d)) + l <= 4294967293).
  { destruct (t_buf (d_tcps d (d_cur d))); [| rewrite Q2 in Q1; cbn in Q1; lia].
    destruct (Z.ltb_spec (u32 (4294967293 - l)) (t_size (d_tcps d (d_cur d)))) as [X | X]; [discriminate |].
    unfold u32 in X. rewrite Z.mod_small in X by lia. lia. }
  destruct (take l s) as [[b |] s1] eqn:E1.
  - destruct (take_some l s b s1 L1 HG E1) as (A1 & B1 & L2 & R1). split; [| exact A1].
    unfold sound. cbn [fst set_state put set_tcps set_len d_cur d_len d_tcps]. split; [exact S1 |]. split; [exact L1 |].
    intros i. destruct (Z.eqb_spec i (d_cur d)); [| apply S3]. unfold held. cbn [t_size t_bytes t_buf]. unfold len in *. rewrite app_length.
    unfold u32. rewrite Z.mod_small by lia. lia.
  - split; [| apply (take_none _ _ _ E1)]. unfold sound. cbn [fst set_state put set_tcps set_len d_cur d_len d_tcps]. split; [exact S1 |]. split; [exact L1 |].
    intros i. destruct (Z.eqb_spec i (d_cur d)); [| apply S3]. unfold held. cbn [t_size t_bytes t_buf]. unfold len in *. rewrite Z.add_0_r.
    unfold u32. rewrite Z.mod_small by lia. lia.
Qed.

Lemma ahead_safe : forall fuel tile s, good s -> (room s < fuel)%nat ->
  ends (fun x => s_src (snd x) = s_src s /\ drift s (snd x)) (look_ahead fuel tile s).
Proof.
  induction fuel as [| fuel IH]; intros tile s HG HF; [lia |]. cbn [look_ahead].
  destruct (take 2 s) as [[b |] s1] eqn:E1; [| split; [exact (proj1 (take_none _ _ _ E1)) | exact (take_drift _ _ _ _ E1)]].
  destruct (take_some 2 s b s1 ltac:(lia) HG E1) as (A1 & B1 & L1 & R1). pose proof (take_drift _ _ _ _ E1) as D1. pose proof (adv_good _ _ HG A1) as G1.
  destruct (negb (from_be b =? SOT)); [split; [exact (proj1 A1) | exact D1] |].
  destruct (take 2 s1) as [[b2 |] s2] eqn:E2; [| exact I]. destruct (take_some 2 s1 b2 s2 ltac:(lia) G1 E2) as (A2 & B2 & L2 & R2).
  pose proof (take_drift _ _ _ _ E2) as D2. pose proof (adv_good _ _ G1 A2) as G2.
  destruct (negb (from_be b2 =? 10)); [exact I |].
  destruct (take 8 s2) as [[b3 |] s3] eqn:E3; [| exact I]. destruct (take_some 8 s2 b3 s3 ltac:(lia) G2 E3) as (A3 & B3 & L3 & R3).
  pose proof (take_drift _ _ _ _ E3) as D3. pose proof (adv_good _ _ G2 A3) as G3.
  pose proof (adv_trans _ _ _ A1 (adv_trans _ _ _ A2 A3)) as A13. assert (D13 : drift s s3) by (unfold drift in *; lia).
  destruct (get_sot_values b3) as [[[[i l] part] parts] |]; [| exact I].
  destruct (i =? tile); [split; [exact (proj1 A13) | exact D13] |].
  destruct (Z.ltb_spec l 14); [split; [exact (proj1 A13) | exact D13] |].
  destruct (skip (l - 12) s3) as [s4 |] eqn:E4; [| split; [exact (proj1 A13) | exact D13]].
  pose proof (skip_some (l - 12) s3 s4 ltac:(lia) E4) as A4. pose proof (skip_drift _ _ _ E4) as D4.
  pose proof (IH tile s4 (adv_good _ _ G3 A4) ltac:(pose proof (adv_room _ _ A4); lia)) as K.
  destruct (look_ahead fuel tile s4) as [[r s5] | | |]; try exact K. cbn [ends snd] in *. destruct K as [K1 K2].
  split; [rewrite K1, (proj1 A4); exact (proj1 A13) | unfold drift in *; lia].
Qed.

Lemma check_safe : forall d s, sound d -> good s -> ends (after_ s) (check_parts nb seekable d s).
Proof.
  intros d s HS HG. unfold check_parts. destruct (d_can d && negb (d_checked d)); [| split; [exact HS | apply adv_refl]].
  assert (K : ends (fun x => adv s (snd x)) (need_correction seekable (d_cur d) s)).
  { unfold need_correction. destruct seekable; cbn [negb]; [| apply adv_refl].
    pose proof (ahead_safe (S (length (s_src s))) (d_cur d) s HG ltac:(rewrite room_eq; lia)) as K.
    destruct (look_ahead (S (length (s_src s))) (d_cur d) s) as [[r s1] | | |]; try exact K. destruct K as [K1 K2]. cbn [ends snd] in *.
    unfold adv, seek, drift in *. cbn [s_src s_pos]. split; [exact K1 | lia]. }
  destruct (need_correction seekable (d_cur d) s) as [[r s1] | | |]; try exact K. cbn [ends snd] in K. destruct HS as (S1 & S2 & S3).
  destruct r; (split; [| exact K]); split; cbn [fst d_cur d_len d_tcps]; try exact S1; (split; [exact S2 |]); [| exact S3].
  intros i. cbv zeta. destruct ((0 <=? i) && (i <? nb) && negb (t_parts (d_tcps d i) =? 0)); exact (S3 i).
Qed.

Lemma find_range : forall f n i, i <= find f n i <= i + Z.of_nat n.
Proof. induction n as [| n IH]; intros i; cbn [find]; [lia |]. destruct (f i); [lia |]. pose proof (IH (i + 1)). lia. Qed.

Lemma parts_safe : forall fuel m d s, sound d -> good s -> (S (room s) < fuel)%nat ->
  ends (after3 s) (read_parts handle nb wanted strict seekable false fuel m d s).
Proof.
  induction fuel as [| fuel IH]; intros m d s HS HG HF; [lia |]. cbn [read_parts].
  destruct (d_can d || (m =? EOC)); [split; [exact HS | apply adv_refl] |].
  pose proof (heads_safe (S (length (s_src s))) m d s HS HG ltac:(rewrite room_eq; lia)) as K.
  destruct (read_heads handle nb wanted (S (length (s_src s))) m d s) as [[[m1 d1] s1] | | |]; try exact K. destruct K as [HS1 A1]. cbn [fst snd] in HS1, A1.
  destruct ((left s1 =? 0) && (d_state d1 =? st_NEOC)); [split; [exact HS1 | exact A1] |].
  pose proof (adv_good _ _ HG A1) as G1.
  assert (K : ends (after_ s) (if d_skip d1 then Done (set_skip false (set_can false (set_state st_TPHSOT d1)), s1)
                     else match read_sod nb strict false d1 s1 with
                          | Done (d, s) => check_parts nb seekable d s
                          | Fail => Fail | Bad => Bad | Fuel => Fuel
                          end)).
  { destruct (d_skip d1); [split; [exact HS1 | exact A1] |].
    pose proof (sod_safe d1 s1 HS1 G1) as K. destruct (read_sod nb strict false d1 s1) as [[d2 s2] | | |]; try exact K. destruct K as [HS2 A2]. cbn [fst snd] in HS2, A2.
    pose proof (check_safe d2 s2 HS2 (adv_good _ _ G1 A2)) as K. destruct (check_parts nb seekable d2 s2) as [[d3 s3] | | |]; try exact K.
    destruct K as [HS3 A3]. split; [exact HS3 |]. exact (adv_trans _ _ _ A1 (adv_trans _ _ _ A2 A3)). }
  match type of K with ends _ ?x => destruct x as [[d2 s2] | | |]; try exact K end. destruct K as [HS2 A2]. cbn [fst snd] in HS2, A2.
  destruct (d_can d2); [split; [exact HS2 | exact A2] |]. pose proof (adv_good _ _ HG A2) as G2.
  destruct (take 2 s2) as [[b |] s3] eqn:E3.
  - destruct (take_some 2 s2 b s3 ltac:(lia) G2 E3) as (A3 & B3 & L3 & R3).
    pose proof (IH (from_be b) d2 s3 HS2 (adv_good _ _ G2 A3) ltac:(pose proof (adv_room _ _ A2); lia)) as K.
    destruct (read_parts handle nb wanted strict seekable false fuel (from_be b) d2 s3) as [[[m4 d4] s4] | | |]; try exact K.
    destruct K as [HS4 A4]. split; [exact HS4 |]. exact (adv_trans _ _ _ A2 (adv_trans _ _ _ A3 A4)).
  - cbv zeta. match goal with |- context [find ?f ?n 0] => set (i := find f n 0); pose proof (find_range f n 0) as FR; fold i in FR end.
    destruct (Z.ltb_spec i nb); [| rewrite andb_false_r; exact I]. destruct (d_cur d2 + 1 =? nb); [| exact I]. cbn [andb].
    split; [| exact (adv_trans _ _ _ A2 (take_none _ _ _ E3))]. destruct HS2 as (S1 & S2 & S3).
    split; [cbn [snd fst set_state set_cur d_cur]; lia | split; [exact S2 | exact S3]].
Qed.

Lemma header_safe : forall d s, sound d -> good s ->
  ends (fun x => match x with (None, _, _) => True | (Some i, d', s') => sound d' /\ adv s s' /\ 0 <= i < nb end)
    (read_tile_header handle nb wanted strict seekable false d s).
Proof.
  intros d s HS HG. unfold read_tile_header.
  destruct (if d_state d =? st_EOC then Some EOC else if d_state d =? st_TPHSOT then Some SOT else None) as [m |]; [| exact I].
  pose proof (parts_safe (S (S (length (s_src s)))) m d s HS HG ltac:(rewrite room_eq; destruct HG; lia)) as K.
  destruct (read_parts handle nb wanted strict seekable false (S (S (length (s_src s)))) m d s) as [[[m1 d1] s1] | | |]; try exact K.
  destruct K as [HS1 A1]. cbn [fst snd] in HS1, A1. cbv zeta.
  set (d2 := if (m1 =? EOC) && negb (d_state d1 =? st_EOC) then set_state st_EOC (set_cur 0 d1) else d1).
  assert (HS2 : sound d2).
  { unfold d2. destruct ((m1 =? EOC) && negb (d_state d1 =? st_EOC)); [| exact HS1]. destruct HS1 as (S1 & S2 & S3).
    split; [cbn [set_state set_cur d_cur]; lia | split; [exact S2 | exact S3]]. }
  clearbody d2. destruct HS2 as (S1 & S2 & S3).
  match goal with |- context [set_cur ?x d2] => set (i := x) end.
  assert (HI : d_cur d2 <= i <= nb /\ (d_can d2 = true -> i < nb)).
  { unfold i. destruct (d_can d2); [lia |]. split; [| discriminate].
    match goal with |- context [find ?f ?n ?c] => pose proof (find_range f n c) end. lia. }
  clearbody i. cbn [set_cur d_can]. destruct (Z.eqb_spec i nb) as [Ei | Ei].
  - destruct (d_can d2); cbn [negb andb]; [exfalso; destruct HI as [_ HI]; specialize (HI eq_refl); lia | exact I].
  - rewrite andb_false_r. destruct (Z.leb_spec 0 i); [| lia]. destruct (Z.ltb_spec i nb); [| lia]. cbn [andb negb].
    split; [| split; [exact A1 | lia]]. split; [cbn [set_state set_cur d_cur]; lia | split; [exact S2 | exact S3]].
Qed.

Lemma tile_safe : forall i d s, sound d -> good s -> ends (after3 s) (decode_tile use i d s).
Proof.
  intros i d s HS HG. unfold decode_tile. destruct ((Z.land (d_state d) st_DATA =? 0) || negb (i =? d_cur d)); [exact I |]. cbv zeta.
  pose proof HS as (S1 & S2 & S3). destruct (S3 i) as [Q1 Q2]. destruct (t_buf (d_tcps d i)) as [r |]; [| exact I].
  destruct (Z.ltb_spec r (t_size (d_tcps d i))); [lia |].
  destruct (use i (t_par (d_tcps d i)) (firstn (Z.to_nat (t_size (d_tcps d i))) (t_bytes (d_tcps d i)))) as [x |]; [| exact I].
  assert (HD : forall st, sound (set_state st (set_can false d))) by (intros st; split; [exact S1 | split; [exact S2 | exact S3]]).
  match goal with |- ends _ (if ?c then _ else _) => destruct c end; [split; [apply HD | apply adv_refl] |].
  match goal with |- ends _ (if ?c then _ else _) => destruct c end; [split; [apply HD | apply adv_refl] |].
  destruct (take 2 s) as [[b |] s1] eqn:E1; [| exact I]. destruct (take_some 2 s b s1 ltac:(lia) HG E1) as (A1 & B1 & L1 & R1).
  destruct (from_be b =? EOC); [split; [| exact A1]; split; [cbn [snd fst set_state set_cur d_cur]; lia | split; [exact S2 | exact S3]] |].
  destruct (from_be b =? SOT); [split; [apply HD | exact A1] |]. destruct (left s1 =? 0); [split; [exact (HD st_NEOC) | exact A1] | exact I].
Qed.

Lemma drop_sound : forall i d, sound d -> sound (drop_data i d).
Proof.
  intros i d (S1 & S2 & S3). unfold drop_data. cbv zeta. destruct (t_buf (d_tcps d i)); [| split; [exact S1 | split; [exact S2 | exact S3]]].
  split; [exact S1 | split; [exact S2 |]]. intros j. cbn [put set_tcps d_tcps]. destruct (j =? i); [| apply S3]. split; reflexivity.
Qed.

Lemma loop_safe : forall n d s, sound d -> good s -> ends (fun _ => True) (decode_loop handle use nb wanted strict seekable false n d s).
Proof.
  induction n as [| n IH]; intros d s HS HG; [exact I |]. cbn [decode_loop].
  pose proof (header_safe d s HS HG) as K.
  destruct (read_tile_header handle nb wanted strict seekable false d s) as [[[[i |] d1] s1] | | |]; try exact K. destruct K as (HS1 & A1 & _).
  pose proof (adv_good _ _ HG A1) as G1. pose proof (tile_safe i d1 s1 HS1 G1) as K.
  destruct (decode_tile use i d1 s1) as [[[r d2] s2] | | |]; try exact K. destruct K as [HS2 A2]. cbn [fst snd] in HS2, A2. cbv zeta.
  match goal with |- ends _ (if ?c then _ else _) => destruct c end; [exact I |].
  pose proof (IH (drop_data i d2) s2 (drop_sound i d2 HS2) (adv_good _ _ G1 A2)) as K.
  destruct (decode_loop handle use nb wanted strict seekable false n (drop_data i d2) s2); exact K.
Qed.

Lemma safe : forall par bytes, Forall byte bytes -> ends (fun _ => True) (decode_tiles handle use nb wanted strict seekable false par bytes).
Proof.
  intros par bytes HB. unfold decode_tiles. destruct (Z.leb_spec nb 0) as [L | L].
  - replace (Z.to_nat nb) with O by lia. exact I.
  - apply loop_safe; [| split; [cbn; lia | exact HB]]. unfold start. split; [cbn [d_cur]; lia |]. split; [cbn; lia |]. intros i. split; reflexivity.
Qed.

End Safe.
