(** Proofs for PltProps (C62). *)

From Coq Require Import ZArith List Bool Lia.
From Verif Require Import Ints CioModel HdrModel HdrBytes PartSpec PltModel PltSpec.
Import ListNotations.
Local Open Scope Z_scope.

Definition flat (segs : list (list Z)) : list Z := flat_map (fun b => seg_bytes (PLT, b)) segs.

Lemma len_app : forall {A} (a b : list A), len (a ++ b) = len a + len b.
Proof. intros. unfold len. rewrite app_length. lia. Qed.
Lemma len_cons : forall {A} (x : A) l, len (x :: l) = 1 + len l.
Proof. intros. unfold len. cbn [length]. lia. Qed.
Lemma len_nonneg : forall {A} (l : list A), 0 <= len l.
Proof. intros. unfold len. lia. Qed.
Lemma len_rev : forall {A} (l : list A), len (rev l) = len l.
Proof. intros. unfold len. rewrite rev_length. reflexivity. Qed.

Lemma flat_app : forall a b, flat (a ++ b) = flat a ++ flat b.
Proof. intros. apply flat_map_app. Qed.

(** ** The groups of a length *)

Lemma groups_mean : forall room n l rest, 0 <= n -> groups room n = Some l -> lengths (rev l ++ rest) 0 false = lengths rest n (0 <? n).
Proof.
  induction room as [| room IH]; intros n l rest N E; cbn [groups] in E; rewrite Z.gtb_ltb in E; destruct (Z.ltb_spec 0 n) as [P | P]; try discriminate E;
    try (assert (n = 0) by lia; subst n; injection E as <-; reflexivity).
  destruct (groups room (n / 128)) as [l' |] eqn:G; [| discriminate E]. injection E as <-.
  cbn [rev]. rewrite <- app_assoc. rewrite (IH _ _ _ (Z.div_pos n 128 N ltac:(lia)) G). cbn [app lengths].
  pose proof (Z.mod_pos_bound n 128 ltac:(lia)). pose proof (Z.div_mod n 128 ltac:(lia)).
  destruct (Z.ltb_spec (n mod 128 + 128) 128) as [F | _]; [lia |].
  replace (128 * (n / 128) + (n mod 128 + 128 - 128)) with n by lia. reflexivity.
Qed.

Lemma groups_bytes : forall room n l, groups room n = Some l -> Forall (fun x => 0 <= x < 256) l.
Proof.
  induction room as [| room IH]; intros n l E; cbn [groups] in E; destruct (n >? 0); try discriminate E; try (injection E as <-; constructor).
  destruct (groups room (n / 128)) as [l' |] eqn:G; [| discriminate E]. injection E as <-. constructor; [| apply (IH _ _ G)].
  pose proof (Z.mod_pos_bound n 128 ltac:(lia)). lia.
Qed.

Lemma var_ok : forall n, is_u32 n -> exists v, var_bytes n = Some v /\ len v = bytes_of n /\ Forall (fun x => 0 <= x < 256) (rev v) /\
  forall rest l, lengths rest 0 false = Some l -> lengths (rev v ++ rest) 0 false = Some (n :: l).
Proof.
  intros n [N0 N1].
  assert (X : exists v, groups 4 (n / 128) = Some v /\ 1 + len v = bytes_of n).
  { unfold bytes_of. change (2 ^ 32) with 4294967296 in N1. change (2 ^ 7) with 128. change (2 ^ 14) with 16384. change (2 ^ 21) with 2097152. change (2 ^ 28) with 268435456.
    remember (n / 128) as a eqn:A. remember (a / 128) as b eqn:B. remember (b / 128) as c eqn:C. remember (c / 128) as d eqn:D. remember (d / 128) as e eqn:E.
    assert (KA : n = 128 * a + n mod 128 /\ 0 <= n mod 128 < 128) by (subst a; split; [apply Z.div_mod | apply Z.mod_pos_bound]; lia).
    assert (KB : a = 128 * b + a mod 128 /\ 0 <= a mod 128 < 128) by (subst b; split; [apply Z.div_mod | apply Z.mod_pos_bound]; lia).
    assert (KC : b = 128 * c + b mod 128 /\ 0 <= b mod 128 < 128) by (subst c; split; [apply Z.div_mod | apply Z.mod_pos_bound]; lia).
    assert (KD : c = 128 * d + c mod 128 /\ 0 <= c mod 128 < 128) by (subst d; split; [apply Z.div_mod | apply Z.mod_pos_bound]; lia).
    assert (KE : d = 128 * e + d mod 128 /\ 0 <= d mod 128 < 128) by (subst e; split; [apply Z.div_mod | apply Z.mod_pos_bound]; lia).
    cbn [groups]. rewrite <- B, <- C, <- D, <- E, !Z.gtb_ltb.
    destruct (Z.ltb_spec 0 a); destruct (Z.ltb_spec 0 b); destruct (Z.ltb_spec 0 c); destruct (Z.ltb_spec 0 d); destruct (Z.ltb_spec 0 e); try (exfalso; lia);
      (eexists; split; [reflexivity |]);
      destruct (Z.ltb_spec n 128); destruct (Z.ltb_spec n 16384); destruct (Z.ltb_spec n 2097152); destruct (Z.ltb_spec n 268435456); try (exfalso; lia); reflexivity. }
  destruct X as (v & G & L). exists (n mod 128 :: v). unfold var_bytes. rewrite G. split; [reflexivity |]. split; [rewrite len_cons; exact L |].
  split; [apply Forall_rev; constructor; [pose proof (Z.mod_pos_bound n 128 ltac:(lia)); lia | apply (groups_bytes _ _ _ G)] |].
  intros rest l R. cbn [rev]. rewrite <- app_assoc. rewrite (groups_mean 4 (n / 128) v _ (Z.div_pos n 128 N0 ltac:(lia)) G). cbn [app lengths].
  pose proof (Z.mod_pos_bound n 128 ltac:(lia)). pose proof (Z.div_mod n 128 ltac:(lia)).
  destruct (Z.ltb_spec (n mod 128) 128) as [_ | F]; [| lia]. rewrite R. f_equal. f_equal. lia.
Qed.

Lemma bytes_of_bound : forall n, 1 <= bytes_of n <= 5.
Proof. intros n. unfold bytes_of. repeat match goal with |- context [?a <? ?b] => destruct (a <? b) end; lia. Qed.

(** ** Segments *)

(** The state with [done] complete segments and [body] in the one begun. *)
Definition st (done : list (list Z)) (body : list Z) : plt :=
  mkPlt (flat done ++ be 2 PLT ++ [0; 0] ++ be 1 (len done) ++ body) (length (flat done) + 2) (len done) (3 + len body).

Lemma be1 : forall z, 0 <= z < 256 -> be 1 z = [z].
Proof.
  intros z H. unfold be, to_be4. cbn [Nat.sub skipn]. f_equal. unfold byte. rewrite Z.mul_0_r, Z.shiftr_0_r.
  change 255 with (Z.ones 8). rewrite Z.land_ones by lia. apply Z.mod_small. lia.
Qed.

Lemma seg_len : forall b, len (seg_bytes (PLT, b)) = 4 + len b.
Proof.
  intros b. unfold seg_bytes. rewrite !len_app. cbn [fst snd].
  assert (E : forall v, len (be 2 v) = 2) by (intros; unfold len; rewrite be_len by lia; reflexivity). rewrite !E. lia.
Qed.

Lemma patched : forall done body, len done <= 255 ->
  patch (p_at (st done body)) (p_len (st done body)) (p_buf (st done body)) = flat (done ++ [len done :: body]).
Proof.
  intros done body D. pose proof (len_nonneg done). rewrite flat_app. unfold flat at 2. cbn [flat_map]. rewrite app_nil_r.
  unfold seg_bytes. cbn [fst snd]. rewrite len_cons. unfold st, patch. cbn [p_at p_len p_buf]. rewrite be1 by lia.
  pose proof (be_len 2 PLT ltac:(lia)) as L.
  replace (flat done ++ be 2 PLT ++ [0; 0] ++ [len done] ++ body) with ((flat done ++ be 2 PLT) ++ [0; 0] ++ [len done] ++ body) by (rewrite <- app_assoc; reflexivity).
  assert (K : length (flat done ++ be 2 PLT) = (length (flat done) + 2)%nat) by (rewrite app_length, L; reflexivity).
  rewrite <- K. rewrite firstn_app, firstn_all, Nat.sub_diag, firstn_O, app_nil_r.
  rewrite skipn_app, skipn_all2 by lia. replace (length (flat done ++ be 2 PLT) + 2 - length (flat done ++ be 2 PLT))%nat with 2%nat by lia.
  cbn [skipn app]. rewrite <- app_assoc. replace (1 + len body + 2) with (3 + len body) by lia. reflexivity.
Qed.

Lemma opened : forall done body, len done < 255 ->
  open_segment (flat (done ++ [len done :: body])) ((len done + 1) mod 256) = st (done ++ [len done :: body]) [].
Proof.
  intros done body D. pose proof (len_nonneg done). unfold open_segment, st.
  assert (E : len (done ++ [len done :: body]) = len done + 1) by (rewrite len_app; reflexivity).
  rewrite E. rewrite Z.mod_small by lia. rewrite app_nil_r. reflexivity.
Qed.

Lemma added : forall done body v, 3 + len body + len v <= 65535 ->
  mkPlt (p_buf (st done body) ++ rev v) (p_at (st done body)) (p_z (st done body)) ((p_len (st done body) + Z.of_nat (length v)) mod 65536) = st done (body ++ rev v).
Proof.
  intros done body v H. pose proof (len_nonneg body). pose proof (len_nonneg v). unfold st. cbn [p_buf p_at p_z p_len]. fold (len v).
  rewrite Z.mod_small by lia. rewrite len_app, len_rev. rewrite <- !app_assoc. rewrite Z.add_assoc. reflexivity.
Qed.

Lemma run : forall sizes done body, Forall is_u32 sizes -> len done <= 255 -> len body <= 65532 ->
  match write_lengths sizes (st done body) with
  | Panic => False
  | TooMany buf =>
      65528 * (256 - len done) <= len body + sum (map bytes_of sizes) /\ len (flat done) + 65533 * (256 - len done) <= len buf /\
      exists k, 0 <= k /\ len buf <= len (flat done) + 5 + len body + sum (map bytes_of sizes) + 5 * k /\ 65528 * k <= len body + sum (map bytes_of sizes)
  | All buf =>
      (exists c segs l more, buf = flat (done ++ (len done :: body ++ c) :: segs) /\ Forall (fun x => 0 <= x < 256) c /\ lengths c 0 false = Some l /\ sizes = l ++ more /\
        say (len done + 1) segs more /\ len (body ++ c) <= 65532 /\ Forall (fun b => len b <= 65533) segs /\ len done + 1 + len segs <= 256) /\
      len body + sum (map bytes_of sizes) <= 65532 * (256 - len done) /\
      exists k, 0 <= k /\ len buf <= len (flat done) + 5 + len body + sum (map bytes_of sizes) + 5 * k /\ 65528 * k <= len body + sum (map bytes_of sizes)
  end.
Proof.
  induction sizes as [| n sizes IH]; intros done body U D B; pose proof (len_nonneg body) as B0; pose proof (len_nonneg done) as D0.
  - cbn [write_lengths]. rewrite patched by exact D. cbn [map sum fold_right]. split; [| split].
    + exists [], [], [], []. rewrite app_nil_r. split; [reflexivity |]. split; [constructor |]. split; [reflexivity |]. split; [reflexivity |]. split; [reflexivity |].
      split; [exact B |]. split; [constructor |]. unfold len at 2. cbn. lia.
    + lia.
    + exists 0. split; [lia |]. rewrite flat_app, len_app. unfold flat at 2. cbn [flat_map]. rewrite app_nil_r, seg_len, len_cons. lia.
  - inversion U as [| ? ? Un Us]; subst. destruct (var_ok n Un) as (v & V & L & VB & R). pose proof (bytes_of_bound n) as BB.
    cbn [write_lengths]. rewrite V. fold (len v). cbn [map sum fold_right]. change (fold_right Z.add 0 (map bytes_of sizes)) with (sum (map bytes_of sizes)).
    rewrite Z.gtb_ltb.
    assert (TS : 0 <= sum (map bytes_of sizes)).
    { clear. induction sizes as [| m s IH]; cbn [map sum fold_right]; [lia |]. pose proof (bytes_of_bound m). change (fold_right Z.add 0 (map bytes_of s)) with (sum (map bytes_of s)). lia. }
    change (p_len (st done body)) with (3 + len body). change (p_z (st done body)) with (len done).
    destruct (Z.ltb_spec 65535 (3 + len body + len v)) as [O | O].
    + destruct (Z.eqb_spec (len done) 255) as [F | F].
      * (* too many *)
        change (p_buf (st done body)) with (flat done ++ be 2 PLT ++ [0; 0] ++ be 1 (len done) ++ body).
        assert (E : len (flat done ++ be 2 PLT ++ [0; 0] ++ be 1 (len done) ++ body) = len (flat done) + 5 + len body).
        { rewrite !len_app. rewrite be1 by lia. assert (E2 : len (be 2 PLT) = 2) by reflexivity. rewrite E2. change (len [0; 0]) with 2. change (len [len done]) with 1. lia. }
        rewrite E. split; [lia |]. split; [lia |]. exists 0. split; [lia |]. lia.
      * change (3 + len body) with (p_len (st done body)). rewrite (patched done body) by lia. rewrite opened by lia.
        pose proof (added (done ++ [len done :: body]) [] v ltac:(unfold len at 1; cbn [length]; lia)) as A.
        fold (len v) in A. rewrite A. clear A. cbn [app].
        assert (E : len (done ++ [len done :: body]) = len done + 1) by (rewrite len_app; reflexivity).
        assert (FL : len (flat (done ++ [len done :: body])) = len (flat done) + 5 + len body).
        { rewrite flat_app, len_app. unfold flat at 2. cbn [flat_map]. rewrite app_nil_r, seg_len, len_cons. lia. }
        pose proof (IH (done ++ [len done :: body]) (rev v) Us ltac:(lia) ltac:(rewrite len_rev; lia)) as H.
        rewrite E, FL, len_rev in H.
        destruct (write_lengths sizes (st (done ++ [len done :: body]) (rev v))) as [buf | buf |]; [| | exact H].
        -- destruct H as [(c & segs & l & more & H1 & HB & H2 & H3 & H4 & H5 & H6 & H7) [H8 (k & K0 & K1 & K2)]]. split; [| split].
           ++ exists [], ((len done + 1 :: rev v ++ c) :: segs), [], (n :: sizes). rewrite app_nil_r.
              split; [rewrite <- app_assoc in H1; exact H1 |]. split; [constructor |]. split; [reflexivity |]. split; [reflexivity |]. split; [| split; [exact B | split]].
              ** cbn [say]. exists (rev v ++ c), (n :: l), more. split; [reflexivity |]. split; [apply Forall_app; split; assumption |]. split; [apply R; exact H2 |]. split; [rewrite H3; reflexivity | exact H4].
              ** constructor; [| exact H6]. rewrite len_cons. lia.
              ** rewrite len_cons. lia.
           ++ lia.
           ++ exists (k + 1). split; [lia |]. split; lia.
        -- destruct H as (H1 & H2 & k & K0 & K1 & K2). split; [lia |]. split; [lia |]. exists (k + 1). split; [lia |]. split; lia.
    + change (3 + len body) with (p_len (st done body)). pose proof (added done body v ltac:(lia)) as A. change (p_z (st done body)) with (len done) in A. fold (len v) in A. rewrite A. clear A.
      pose proof (IH done (body ++ rev v) Us D ltac:(rewrite len_app, len_rev; lia)) as H. rewrite len_app, len_rev in H.
      destruct (write_lengths sizes (st done (body ++ rev v))) as [buf | buf |]; [| | exact H].
      * destruct H as [(c & segs & l & more & H1 & HB & H2 & H3 & H4 & H5 & H6 & H7) [H8 (k & K0 & K1 & K2)]]. split; [| split].
        -- exists (rev v ++ c), segs, (n :: l), more. rewrite <- app_assoc in H1, H5. split; [exact H1 |]. split; [apply Forall_app; split; assumption |]. split; [apply R; exact H2 |]. split; [rewrite H3; reflexivity |].
           split; [exact H4 |]. split; [exact H5 |]. split; [exact H6 | exact H7].
        -- lia.
        -- exists k. split; [lia |]. split; lia.
      * destruct H as (H1 & H2 & k & K0 & K1 & K2). split; [lia |]. split; [lia |]. exists k. split; [lia |]. split; lia.
Qed.

Lemma start_st : open_segment [] 0 = st [] [].
Proof. unfold open_segment, st. cbn [flat flat_map len length app]. rewrite app_nil_r. reflexivity. Qed.

Lemma sum_nonneg : forall l, Forall (fun x => 0 <= x) l -> 0 <= sum l.
Proof. induction 1; cbn [sum fold_right]; [lia |]. change (fold_right Z.add 0 l) with (sum l). lia. Qed.

Lemma sum_bytes : forall sizes, Forall is_u32 sizes ->
  0 <= sum sizes /\ len sizes <= sum (map bytes_of sizes) <= 5 * len sizes /\
  exists big, 0 <= big /\ 2 ^ 21 * big <= sum sizes /\ sum (map bytes_of sizes) <= 3 * len sizes + 2 * big.
Proof.
  induction 1 as [| n l U _ (I0 & I1 & big & B0 & B1 & B2)].
  - cbn. split; [lia |]. split; [lia |]. exists 0. lia.
  - rewrite len_cons. cbn [map sum fold_right]. fold (sum l). fold (sum (map bytes_of l)). destruct U as [U _]. pose proof (bytes_of_bound n).
    split; [lia |]. split; [lia |]. destruct (Z.ltb_spec n (2 ^ 21)) as [S | S].
    + exists big. split; [lia |]. split; [lia |]. assert (bytes_of n <= 3); [| lia]. unfold bytes_of.
      destruct (n <? 2 ^ 7); [lia |]. destruct (n <? 2 ^ 14); [lia |]. destruct (Z.ltb_spec n (2 ^ 21)); lia.
    + exists (big + 1). split; [lia |]. split; lia.
Qed.

Lemma room : forall hdr count sizes k, Forall is_u32 sizes -> 0 <= hdr -> 1 <= count -> len sizes <= count -> sum sizes < 2 ^ 32 ->
  hdr + 5 * count + 6 * ((count + 16381) / 16382) + 1 < 2 ^ 32 -> 0 <= k -> 65528 * k <= sum (map bytes_of sizes) ->
  5 + sum (map bytes_of sizes) + 5 * k <= reserved hdr count.
Proof.
  intros hdr count sizes k U H C L S R K0 K. destruct (sum_bytes sizes U) as (S0 & (S1 & S2) & big & B0 & B1 & B2).
  change (2 ^ 32) with 4294967296 in *. change (2 ^ 21) with 2097152 in *.
  assert (Q : 1 <= (count + 16381) / 16382) by (apply Z.div_le_lower_bound; lia).
  unfold reserved, u32. replace (count + 16382 - 1) with (count + 16381) by lia. change (2 ^ 32) with 4294967296.
  set (q := (count + 16381) / 16382) in *. rewrite (Z.mod_small (6 * q)) by lia. rewrite (Z.mod_small (5 * count)) by lia. rewrite (Z.mod_small (hdr + 5 * count)) by lia.
  rewrite (Z.mod_small (6 * q + (hdr + 5 * count))) by lia. rewrite Z.mod_small by lia. lia.
Qed.

(** ** Reading *)

Lemma scan_zero : forall c acc l, Forall (fun x => 0 <= x < 256) c -> c <> [] -> (exists v inside, lengths c v inside = Some l) -> scan c acc = 0.
Proof.
  induction c as [| x c IH]; intros acc l B N (v & inside & E); [contradiction |]. inversion B as [| ? ? Bx Bc]; subst. cbn [scan lengths] in *.
  assert (X : (Z.land x 128 =? 0) = (x <? 128)).
  { clear - Bx. destruct (Z.ltb_spec x 128) as [S | S].
    - apply Z.eqb_eq. replace (Z.land x 128) with (Z.land (Z.land x (Z.ones 7)) 128); [rewrite <- Z.land_assoc; apply Z.land_0_r |].
      rewrite Z.land_ones by lia. rewrite Z.mod_small by (change (2 ^ 7) with 128; lia). reflexivity.
    - apply Z.eqb_neq. intros F. assert (T : Z.testbit x 7 = true).
      { rewrite Z.testbit_true by lia. change (2 ^ 7) with 128. replace (x / 128) with 1; [reflexivity |]. apply Z.div_unique with (x - 128); lia. }
      assert (G : Z.testbit (Z.land x 128) 7 = true) by (rewrite Z.land_spec, T; reflexivity). rewrite F in G. rewrite Z.bits_0 in G. discriminate G. }
  rewrite X. destruct (x <? 128).
  - destruct (lengths c 0 false) as [l' |] eqn:E'; [| discriminate E]. destruct c as [| y c]; [reflexivity |].
    apply (IH 0 l' Bc ltac:(discriminate)). exists 0, false. exact E'.
  - destruct c as [| y c]; [discriminate E |]. eapply (IH _ l Bc ltac:(discriminate)). eexists _, _. exact E.
Qed.

Lemma accepted : forall k c l, Forall (fun x => 0 <= x < 256) c -> lengths c 0 false = Some l -> read_plt (k :: c) = true.
Proof.
  intros k c l B E. cbn [read_plt]. destruct c as [| x c]; [reflexivity |]. rewrite (scan_zero (x :: c) 0 l B); [reflexivity | discriminate |]. exists 0, false. exact E.
Qed.
