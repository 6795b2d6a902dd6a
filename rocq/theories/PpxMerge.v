(** Proof part of C75: the two passes over the PPM segments. *)

From Coq Require Import ZArith List Bool Lia.
From Verif Require Import Ints CioModel PpxModel PpxSpec.
Import ListNotations.
Local Open Scope Z_scope.

Definition octet (b : Z) : Prop := 0 <= b < 256.
Definition sing (b : Z) : list Z := [b].
Definition total_of (packs : list bytes) : Z := len (concat packs).

Lemma lor_add : forall a b k, 0 <= k -> 0 <= b < 2 ^ k -> Z.lor (Z.shiftl a k) b = a * 2 ^ k + b.
Proof.
  intros a b k K B. rewrite Z.shiftl_mul_pow2 by exact K. assert (D : Z.land (a * 2 ^ k) b = 0).
  { apply Z.bits_inj'. intros j J. rewrite Z.land_spec, Z.bits_0. destruct (Z.lt_ge_cases j k) as [C | C]; [rewrite Z.mul_pow2_bits_low by lia; reflexivity |].
    destruct (Z.eq_dec b 0) as [-> | N]; [rewrite Z.bits_0; apply andb_false_r |]. rewrite (Z.bits_above_log2 b j); [apply andb_false_r | lia |]. apply Z.lt_le_trans with k; [apply Z.log2_lt_pow2; lia | exact C]. }
  rewrite <- Z.lxor_lor by exact D. symmetry. apply Z.add_nocarry_lxor, D.
Qed.
Lemma read4 : forall a b c e t, octet a -> octet b -> octet c -> octet e ->
  read_bytes (a :: b :: c :: e :: t) 0 4 = Some (((a * 256 + b) * 256 + c) * 256 + e).
Proof.
  intros a b c e t A B C E. unfold octet in *. unfold read_bytes. cbn [count_ok Nat.leb andb slice Nat.add length firstn skipn Nat.sub repeat app]. unfold slice. cbn [Nat.add length Nat.leb firstn skipn]. f_equal. unfold from_be. cbn [repeat app fold_left].
  change (Z.lor (Z.shiftl 0 8) a) with a. rewrite !lor_add by (change (2 ^ 8) with 256; lia). reflexivity.
Qed.
Lemma num_of : forall a b c e, octet a -> octet b -> octet c -> octet e -> num_bytes (((a * 256 + b) * 256 + c) * 256 + e) = [a; b; c; e] /\ 0 <= ((a * 256 + b) * 256 + c) * 256 + e < 2 ^ 32.
Proof.
  intros a b c e A B C E. unfold octet in *. set (n := ((a * 256 + b) * 256 + c) * 256 + e). split; [| unfold n; lia]. unfold num_bytes.
  assert (E1 : n / 2 ^ 8 = (a * 256 + b) * 256 + c) by (symmetry; apply Z.div_unique with e; unfold n; lia).
  assert (E2 : n / 2 ^ 16 = a * 256 + b) by (symmetry; apply Z.div_unique with (c * 256 + e); unfold n; lia).
  assert (E3 : n / 2 ^ 24 = a) by (symmetry; apply Z.div_unique with ((b * 256 + c) * 256 + e); unfold n; lia).
  rewrite E1, E2, E3. rewrite (Z.mod_small a 256) by lia.
  replace ((a * 256 + b) mod 256) with b by (apply Z.mod_unique with a; lia). replace (((a * 256 + b) * 256 + c) mod 256) with c by (apply Z.mod_unique with (a * 256 + b); lia).
  replace (n mod 256) with e; [reflexivity |]. apply Z.mod_unique with ((a * 256 + b) * 256 + c); [left; lia | unfold n; lia].
Qed.
Lemma num_octets : forall n, Forall octet (num_bytes n).
Proof. intros n. unfold num_bytes. repeat constructor; apply Z.mod_pos_bound; lia. Qed.
Lemma read_num : forall n t, 0 <= n < 2 ^ 32 -> read_bytes (num_bytes n ++ t) 0 4 = Some n.
Proof.
  intros n t R. pose proof (num_octets n) as O. unfold num_bytes in *. repeat (match goal with H : Forall octet (_ :: _) |- _ => inversion H; clear H; subst end). cbn [app]. rewrite read4 by assumption. f_equal.
  assert (E1 : n / 2 ^ 24 mod 256 = n / 2 ^ 24) by (apply Z.mod_small; split; [apply Z.div_pos; lia | apply Z.div_lt_upper_bound; lia]). rewrite E1.
  assert (E2 : n / 2 ^ 16 = n / 2 ^ 24 * 256 + n / 2 ^ 16 mod 256) by (change (2 ^ 24) with (2 ^ 16 * 256); rewrite <- Z.div_div by lia; pose proof (Z.div_mod (n / 2 ^ 16) 256 ltac:(lia)); lia).
  assert (E3 : n / 2 ^ 8 = n / 2 ^ 16 * 256 + n / 2 ^ 8 mod 256) by (change (2 ^ 16) with (2 ^ 8 * 256); rewrite <- Z.div_div by lia; pose proof (Z.div_mod (n / 2 ^ 8) 256 ltac:(lia)); lia).
  pose proof (Z.div_mod n 256 ltac:(lia)) as E4. change (2 ^ 8) with 256 in *. lia.
Qed.
(** Four bytes read are a length. *)
Lemma read_is : forall d n, Forall octet d -> 4 <= len d -> read_bytes d 0 4 = Some n -> d = num_bytes n ++ skipn 4 d /\ 0 <= n < 2 ^ 32.
Proof.
  intros d n O L E. unfold len in L. do 4 (destruct d as [| ? d]; [cbn [length] in L; lia |]). repeat (match goal with H : Forall octet (_ :: _) |- _ => inversion H; clear H; subst end).
  rewrite read4 in E by assumption. injection E as <-. destruct (num_of z z0 z1 z2) as (N & R); try assumption. rewrite N. split; [reflexivity | exact R].
Qed.
Lemma read_some : forall d, Forall octet d -> 4 <= len d -> exists n, read_bytes d 0 4 = Some n.
Proof.
  intros d O L. unfold len in L. do 4 (destruct d as [| ? d]; [cbn [length] in L; lia |]). repeat (match goal with H : Forall octet (_ :: _) |- _ => inversion H; clear H; subst end). rewrite read4 by assumption. eexists. reflexivity.
Qed.

Lemma concat_sing : forall l, concat (map sing l) = l.
Proof. induction l as [| a l IH]; [reflexivity |]. cbn [map concat sing app]. f_equal. exact IH. Qed.
Lemma len_app : forall a b, len (a ++ b) = len a + len b.
Proof. intros. unfold len. rewrite app_length. lia. Qed.
Lemma len_pos : forall a, 0 <= len a.
Proof. intros. unfold len. lia. Qed.
Lemma len_zero : forall a, len a = 0 -> a = [].
Proof. intros [| b a] H; [reflexivity |]. unfold len in H. cbn [length] in H. lia. Qed.
Lemma total_cons : forall p packs, total_of (p :: packs) = len p + total_of packs.
Proof. intros. unfold total_of. cbn [concat]. apply len_app. Qed.
Lemma tokens_eq : forall p, tokens p = num_bytes (len p) :: map sing p.
Proof. reflexivity. Qed.

(** A list of parts that begins like single bytes. *)
Lemma split_sing : forall g rest X Y, g ++ X = map sing rest ++ Y ->
  (exists a b, rest = a ++ b /\ g = map sing a /\ X = map sing b ++ Y) \/ (exists g', g = map sing rest ++ g' /\ g' <> [] /\ g' ++ X = Y).
Proof.
  induction g as [| t g IH]; intros rest X Y H.
  - left. exists [], rest. cbn in H |- *. auto.
  - destruct rest as [| b rest]; [right; exists (t :: g); cbn in *; split; [reflexivity |]; split; [discriminate | exact H] |]. cbn [app map] in H. injection H as E H.
    destruct (IH rest X Y H) as [(a & c & E1 & E2 & E3) | (g' & E1 & E2 & E3)].
    + left. exists (b :: a), c. cbn [map app]. rewrite E1, E2, E. auto.
    + right. exists g'. cbn [map app]. rewrite <- E1, E. auto.
Qed.

(** ** From packs to the result *)

(** What is left of a segment, when a pack begins there. *)
Lemma sizes_cut : forall packs fuel g X total, g <> [] -> g ++ X = flat_map tokens packs -> (length (concat g) <= fuel)%nat -> total + total_of packs < 2 ^ 32 -> 0 <= total ->
  exists rest packs' total', sizes fuel (concat g) total = Some (total', len rest) /\ X = map sing rest ++ flat_map tokens packs' /\ total' + total_of packs' = total + total_of packs /\ 0 <= total' /\ len rest <= total'.
Proof.
  induction packs as [| p packs IH]; intros fuel g X total G E Fu T T0; [cbn in E; apply app_eq_nil in E; destruct E; contradiction |].
  destruct g as [| t g]; [contradiction |]. cbn [flat_map] in E. rewrite tokens_eq in E. cbn [app] in E. injection E as -> E. rewrite total_cons in T. pose proof (len_pos p) as Lp. pose proof (len_pos (concat packs)) as Lc. fold (total_of packs) in Lc.
  cbn [concat] in *. rewrite app_length in Fu. change (length (num_bytes (len p))) with 4%nat in Fu. destruct fuel as [| fuel]; [lia |]. cbn [sizes].
  destruct (Z.ltb_spec (len (num_bytes (len p) ++ concat g)) 4) as [K | _]; [rewrite len_app in K; change (len (num_bytes (len p))) with 4 in K; pose proof (len_pos (concat g)); lia |].
  rewrite read_num by lia. change (skipn 4 (num_bytes (len p) ++ concat g)) with (concat g). cbv zeta. destruct (Z.ltb_spec (4294967295 - len p) total); [lia |].
  destruct (split_sing g p X (flat_map tokens packs) E) as [(a & b & E1 & E2 & E3) | (g' & E1 & E2 & E3)].
  - subst g p. rewrite concat_sing. rewrite len_app in *. destruct (Z.leb_spec (len a + len b) (len a)) as [K | K].
    + assert (len b = 0) by (pose proof (len_pos b); lia). apply len_zero in H0. subst b. rewrite skipn_all2 by (unfold len in *; lia). change (len [] =? 0) with true. cbv iota. exists [], packs, (total + (len a + len [])). split; [reflexivity |]. split; [exact E3 |]. rewrite total_cons, len_app. change (len []) with 0. pose proof (len_pos a). repeat split; lia.
    + exists b, packs, (total + (len a + len b)). split; [f_equal; f_equal; unfold u32; rewrite Z.mod_small; unfold len in *; lia |]. split; [exact E3 |]. rewrite total_cons, len_app. pose proof (len_pos a). repeat split; lia.
  - subst g. rewrite concat_app, concat_sing in *. destruct (Z.leb_spec (len p) (len (p ++ concat g'))) as [_ | K]; [| rewrite len_app in K; pose proof (len_pos (concat g')); lia].
    replace (skipn (Z.to_nat (len p)) (p ++ concat g')) with (concat g') by (unfold len; rewrite Nat2Z.id, skipn_app, skipn_all, Nat.sub_diag; reflexivity).
    destruct (Z.eqb_spec (len (concat g')) 0) as [K | K].
    + exfalso. destruct packs as [| p' packs]; [cbn in E3; apply app_eq_nil in E3; destruct E3; contradiction |]. destruct g' as [| t g']; [contradiction |]. cbn [flat_map] in E3. rewrite tokens_eq in E3. cbn [app] in E3. injection E3 as -> _. cbn [concat] in K. rewrite len_app in K. change (len (num_bytes (len p'))) with 4 in K. pose proof (len_pos (concat g')). lia.
    + destruct (IH fuel g' X (total + len p) E2 E3 ltac:(rewrite app_length in Fu; lia) ltac:(lia) ltac:(lia)) as (rest & packs' & total' & S1 & S2 & S3 & S4 & S5). exists rest, packs', total'. rewrite total_cons. split; [exact S1 |]. split; [exact S2 |]. repeat split; lia.
Qed.
Lemma pass1_cut : forall l groups rest packs total, present l = map (@concat Z) groups -> concat groups = map sing rest ++ flat_map tokens packs -> total + total_of packs < 2 ^ 32 -> len rest < 2 ^ 32 -> 0 <= total ->
  pass1 l total (len rest) = Some (total + total_of packs, 0).
Proof.
  induction l as [| [d |] l IH]; intros groups rest packs total Pr E T R T0; cbn [pass1].
  - destruct groups; [| discriminate]. cbn in E. destruct rest; [| discriminate]. destruct packs; [| discriminate]. unfold total_of, len. cbn. f_equal. f_equal. lia.
  - cbn [present flat_map app] in Pr. destruct groups as [| g groups]; [discriminate |]. injection Pr as -> Pr. fold (present l) in Pr. cbn [concat] in E.
    destruct (split_sing g rest (concat groups) _ E) as [(a & b & E1 & E2 & E3) | (g' & E1 & E2 & E3)].
    + subst g rest. rewrite concat_sing, len_app in *. pose proof (len_pos b). pose proof (len_pos a). destruct (Z.leb_spec (len a) (len a + len b)); [| lia].
      replace (u32 (len a + len b - len a)) with (len b) by (unfold u32; rewrite Z.mod_small; lia). apply (IH groups b packs total Pr E3 T); lia.
    + subst g. rewrite concat_app, concat_sing. rewrite len_app. 
      destruct packs as [| p packs]; [cbn in E3; apply app_eq_nil in E3; destruct E3; contradiction |].
      assert (0 < len (concat g')). { destruct g' as [| t g']; [contradiction |]. cbn [flat_map] in E3. rewrite tokens_eq in E3. cbn [app] in E3. injection E3 as -> _. cbn [concat]. rewrite len_app. change (len (num_bytes (len p))) with 4. pose proof (len_pos (concat g')). lia. }
      destruct (Z.leb_spec (len rest + len (concat g')) (len rest)); [lia |]. replace (skipn (Z.to_nat (len rest)) (rest ++ concat g')) with (concat g') by (unfold len; rewrite Nat2Z.id, skipn_app, skipn_all, Nat.sub_diag; reflexivity).
      destruct (Z.ltb_spec 0 (len (concat g'))); [| lia]. destruct (sizes_cut (p :: packs) _ g' (concat groups) total E2 E3 (Nat.le_refl _) T T0) as (rest' & packs' & total' & S1 & S2 & S3 & S4 & S5). cbv zeta. rewrite S1, <- S3. pose proof (len_pos (concat packs')) as Lc. fold (total_of packs') in Lc.
      apply (IH groups rest' packs' total' Pr S2); lia.
  - apply (IH groups rest packs total Pr E T R T0).
Qed.

Lemma copy_ok : forall size out d n, 0 <= n <= len d -> len out + n <= size -> copy size out d n = Some (out ++ firstn (Z.to_nat n) d).
Proof. intros size out d n N H. unfold copy. rewrite (proj2 (Z.leb_le _ _) H), (proj2 (Z.leb_le n (len d))) by lia. reflexivity. Qed.
Lemma firstn_len : forall d, firstn (Z.to_nat (len d)) d = d.
Proof. intros d. unfold len. rewrite Nat2Z.id. apply firstn_all. Qed.
Lemma first_app : forall a b, firstn (Z.to_nat (len a)) (a ++ b) = a.
Proof. intros a b. unfold len. rewrite Nat2Z.id, firstn_app, firstn_all, Nat.sub_diag. cbn [firstn]. apply app_nil_r. Qed.
Lemma skip_app_len : forall a b, skipn (Z.to_nat (len a)) (a ++ b) = b.
Proof. intros a b. unfold len. rewrite Nat2Z.id, skipn_app, skipn_all, Nat.sub_diag. reflexivity. Qed.
Lemma head_pos : forall g X packs, g <> [] -> g ++ X = flat_map tokens packs -> 4 <= len (concat g).
Proof.
  intros [| t g] X [| p packs] G E; try contradiction; [discriminate |]. cbn [flat_map] in E. rewrite tokens_eq in E. cbn [app] in E. injection E as -> _. cbn [concat]. rewrite len_app. change (len (num_bytes (len p))) with 4. pose proof (len_pos (concat g)). lia.
Qed.

Lemma pieces_cut : forall packs fuel g X size out, g <> [] -> g ++ X = flat_map tokens packs -> (length (concat g) <= fuel)%nat -> total_of packs < 2 ^ 32 -> len out + total_of packs <= size ->
  exists rest packs' out', pieces fuel size (concat g) out = Some (Some (out', len rest)) /\ X = map sing rest ++ flat_map tokens packs' /\ out' ++ rest ++ concat packs' = out ++ concat packs /\ len rest < 2 ^ 32.
Proof.
  induction packs as [| p packs IH]; intros fuel g X size out G E Fu T Sz; [cbn in E; apply app_eq_nil in E; destruct E; contradiction |].
  destruct g as [| t g]; [contradiction |]. cbn [flat_map] in E. rewrite tokens_eq in E. cbn [app] in E. injection E as -> E. rewrite total_cons in T, Sz. pose proof (len_pos p) as Lp. pose proof (len_pos (concat packs)) as Lc. fold (total_of packs) in Lc.
  cbn [concat] in *. rewrite app_length in Fu. change (length (num_bytes (len p))) with 4%nat in Fu. destruct fuel as [| fuel]; [lia |]. cbn [pieces].
  destruct (Z.ltb_spec (len (num_bytes (len p) ++ concat g)) 4) as [K | _]; [rewrite len_app in K; change (len (num_bytes (len p))) with 4 in K; pose proof (len_pos (concat g)); lia |].
  rewrite read_num by lia. change (skipn 4 (num_bytes (len p) ++ concat g)) with (concat g). cbv zeta.
  destruct (split_sing g p X (flat_map tokens packs) E) as [(a & b & E1 & E2 & E3) | (g' & E1 & E2 & E3)].
  - subst g p. rewrite concat_sing. rewrite len_app in *. pose proof (len_pos a). pose proof (len_pos b). destruct (Z.leb_spec (len a + len b) (len a)) as [K | K].
    + assert (len b = 0) by lia. apply len_zero in H1. subst b. change (len []) with 0 in *. rewrite Z.add_0_r in *. rewrite copy_ok by lia. rewrite firstn_len. rewrite (skipn_all2 a) by (unfold len; lia). change (len [] =? 0) with true. cbv iota.
      exists [], packs, (out ++ a). split; [reflexivity |]. split; [exact E3 |]. split; [rewrite app_nil_r, <- app_assoc; reflexivity | change (len []) with 0; lia].
    + rewrite copy_ok by lia. rewrite firstn_len. exists b, packs, (out ++ a). split; [do 3 f_equal; unfold u32; rewrite Z.mod_small; lia |]. split; [exact E3 |]. split; [rewrite <- !app_assoc; reflexivity | lia].
  - subst g. rewrite concat_app, concat_sing in *. destruct (Z.leb_spec (len p) (len (p ++ concat g'))) as [_ | K]; [| rewrite len_app in K; pose proof (len_pos (concat g')); lia].
    rewrite copy_ok by (rewrite ?len_app; pose proof (len_pos (concat g')); lia). rewrite first_app, skip_app_len.
    pose proof (head_pos g' X packs E2 E3). destruct (Z.eqb_spec (len (concat g')) 0) as [K | K]; [lia |].
    destruct (IH fuel g' X size (out ++ p) E2 E3 ltac:(rewrite app_length in Fu; lia) ltac:(lia) ltac:(rewrite len_app; lia)) as (rest & packs' & out' & S1 & S2 & S3 & S4). exists rest, packs', out'. split; [exact S1 |]. split; [exact S2 |]. split; [rewrite S3, <- app_assoc; reflexivity | exact S4].
Qed.
Lemma pass2_cut : forall l groups rest packs size out, present l = map (@concat Z) groups -> concat groups = map sing rest ++ flat_map tokens packs -> size < 2 ^ 32 -> len out + len rest + total_of packs <= size ->
  pass2 l size out (len rest) = Some (Some (out ++ rest ++ concat packs)).
Proof.
  induction l as [| [d |] l IH]; intros groups rest packs size out Pr E T Sz; cbn [pass2]; pose proof (len_pos out) as Lo; pose proof (len_pos rest) as Lr; pose proof (len_pos (concat packs)) as Lc; fold (total_of packs) in Lc.
  - destruct groups; [| discriminate]. cbn in E. destruct rest; [| discriminate]. destruct packs; [| discriminate]. cbn. rewrite app_nil_r. reflexivity.
  - cbn [present flat_map app] in Pr. destruct groups as [| g groups]; [discriminate |]. injection Pr as -> Pr. fold (present l) in Pr. cbn [concat] in E.
    destruct (split_sing g rest (concat groups) _ E) as [(a & b & E1 & E2 & E3) | (g' & E1 & E2 & E3)].
    + subst g rest. rewrite concat_sing, len_app in *. pose proof (len_pos b). pose proof (len_pos a). destruct (Z.leb_spec (len a) (len a + len b)); [| lia]. rewrite copy_ok by lia. rewrite firstn_len.
      replace (u32 (len a + len b - len a)) with (len b) by (unfold u32; rewrite Z.mod_small; lia). rewrite (IH groups b packs size (out ++ a) Pr E3 T); [rewrite <- !app_assoc; reflexivity | rewrite len_app; lia].
    + subst g. rewrite concat_app, concat_sing. rewrite len_app. pose proof (head_pos g' _ packs E2 E3). pose proof (len_pos rest).
      destruct (Z.leb_spec (len rest + len (concat g')) (len rest)); [lia |]. rewrite copy_ok by (rewrite ?len_app; lia). rewrite first_app, skip_app_len.
      destruct (Z.ltb_spec 0 (len (concat g'))); [| lia]. destruct (pieces_cut packs _ g' (concat groups) size (out ++ rest) E2 E3 (Nat.le_refl _) ltac:(lia) ltac:(rewrite len_app; lia)) as (rest' & packs' & out' & S1 & S2 & S3 & S4). cbv zeta. rewrite S1.
      assert (Q : len out' + len rest' + total_of packs' = len out + len rest + total_of packs) by (pose proof (f_equal len S3) as Q; rewrite !len_app in Q; exact Q || (unfold total_of; lia)). pose proof (len_pos out'). pose proof (len_pos rest').
      rewrite (IH groups rest' packs' size out' Pr S2).
      * rewrite S3, <- app_assoc. reflexivity.
      * exact T.
      * lia.
  - apply (IH groups rest packs size out Pr E T Sz).
Qed.

(** ** From an accepted sequence of segments to packs *)

Lemma sizes_packs : forall fuel d total total' r, Forall octet d -> sizes fuel d total = Some (total', r) -> 0 <= total -> total < 2 ^ 32 ->
  exists packs, total <= total' < 2 ^ 32 /\ ((r = 0 /\ d = concat (flat_map tokens packs) /\ total' = total + total_of packs) \/
    exists n part, 0 < r /\ 0 <= n < 2 ^ 32 /\ len part + r = n /\ d = concat (flat_map tokens packs ++ num_bytes n :: map sing part) /\ total' = total + total_of packs + n).
Proof.
  induction fuel as [| fuel IH]; intros d total total' r O E T0 T; [discriminate |]. cbn [sizes] in E. destruct (Z.ltb_spec (len d) 4) as [K | K]; [discriminate |].
  destruct (read_some d O K) as (n & En). rewrite En in E. destruct (read_is d n O K En) as (Ed & Rn). set (d1 := skipn 4 d) in *. cbv zeta in E.
  destruct (Z.ltb_spec (4294967295 - n) total); [discriminate |]. destruct (Z.leb_spec n (len d1)) as [K1 | K1].
  - assert (D1 : d1 = firstn (Z.to_nat n) d1 ++ skipn (Z.to_nat n) d1) by (symmetry; apply firstn_skipn). set (p := firstn (Z.to_nat n) d1) in *. set (d2 := skipn (Z.to_nat n) d1) in *.
    assert (Lp : len p = n) by (unfold len, p; rewrite firstn_length; unfold len in K1; lia).
    destruct (Z.eqb_spec (len d2) 0) as [K2 | K2].
    + injection E as <- <-. exists [p]. split; [lia |]. left. split; [reflexivity |]. apply len_zero in K2. rewrite K2, app_nil_r in D1. cbn [flat_map]. rewrite tokens_eq, Lp, app_nil_r. cbn [concat]. rewrite concat_sing, <- D1. split; [exact Ed |].
      rewrite total_cons. unfold total_of. cbn [concat]. change (len []) with 0. rewrite <- D1 in Lp. lia.
    + assert (O2 : Forall octet d2). { rewrite Forall_forall in *. intros x X. apply O. rewrite Ed, D1. apply in_or_app. right. apply in_or_app. right. exact X. }
      destruct (IH d2 (total + n) total' r O2 E ltac:(lia) ltac:(lia)) as (packs & R & [(A & B & C) | (n' & part & A & B & C & D & F)]); exists (p :: packs); (split; [lia |]).
      * left. split; [exact A |]. cbn [flat_map]. rewrite tokens_eq, Lp, total_cons. cbn [app concat]. rewrite concat_app, concat_sing, <- B, <- D1. split; [exact Ed | lia].
      * right. exists n', part. split; [exact A |]. split; [exact B |]. split; [exact C |]. cbn [flat_map]. rewrite tokens_eq, Lp, total_cons. rewrite <- app_assoc. cbn [app concat]. rewrite concat_app, concat_sing, <- D, <- D1. split; [exact Ed | lia].
  - injection E as <- <-. exists []. split; [lia |]. right. pose proof (len_pos d1). assert (U : u32 (n - len d1) = n - len d1) by (unfold u32; rewrite Z.mod_small; lia). rewrite U. exists n, d1.
    split; [lia |]. split; [exact Rn |]. split; [lia |]. cbn [flat_map app concat]. rewrite concat_sing. split; [exact Ed |]. unfold total_of. cbn [concat]. change (len []) with 0. lia.
Qed.
Lemma pass1_packs : forall l total total' r, Forall (Forall octet) (present l) -> pass1 l total r = Some (total', 0) -> 0 <= total < 2 ^ 32 -> 0 <= r < 2 ^ 32 ->
  exists groups rest packs, present l = map (@concat Z) groups /\ concat groups = map sing rest ++ flat_map tokens packs /\ len rest = r /\ total' = total + total_of packs /\ total' < 2 ^ 32.
Proof.
  induction l as [| [d |] l IH]; intros total total' r O E T R; cbn [pass1] in E.
  - injection E as <- ->. exists [], [], []. split; [reflexivity |]. split; [reflexivity |]. split; [reflexivity |]. change (total_of []) with 0. lia.
  - cbn [present flat_map app] in O |- *. fold (present l) in O |- *. inversion O as [| ? ? Od Ol]; subst. pose proof (len_pos d) as Ld. destruct (Z.leb_spec (len d) r) as [K | K].
    + assert (U : u32 (r - len d) = r - len d) by (unfold u32; rewrite Z.mod_small; lia). rewrite U in E. destruct (IH total total' (r - len d) Ol E T ltac:(lia)) as (groups & rest & packs & P1 & P2 & P3 & P4 & P5).
      exists (map sing d :: groups), (d ++ rest), packs. cbn [map concat]. rewrite concat_sing, P1, P2, map_app, len_app, <- app_assoc. split; [reflexivity |]. split; [reflexivity |]. split; [lia |]. split; assumption.
    + set (d1 := skipn (Z.to_nat r) d) in *. set (d0 := firstn (Z.to_nat r) d). assert (D : d = d0 ++ d1) by (symmetry; apply firstn_skipn). assert (L0 : len d0 = r) by (unfold len, d0; rewrite firstn_length; unfold len in K; lia).
      assert (L1 : 0 < len d1) by (rewrite D, len_app in K; lia). cbv zeta in E. destruct (Z.ltb_spec 0 (len d1)); [| lia]. destruct (sizes (length d1) d1 total) as [[t1 r1] |] eqn:Es; [| discriminate].
      assert (O1 : Forall octet d1). { rewrite Forall_forall in *. intros x X. apply Od. rewrite D. apply in_or_app. right. exact X. }
      destruct (sizes_packs _ _ _ _ _ O1 Es ltac:(lia) ltac:(lia)) as (pk & Rt & [(A & B & C) | (n & part & A & B & C & F & G)]).
      * subst r1. destruct (IH t1 total' 0 Ol E ltac:(lia) ltac:(lia)) as (groups & rest & packs & P1 & P2 & P3 & P4 & P5). apply len_zero in P3. subst rest. cbn [map app] in P2.
        exists ((map sing d0 ++ flat_map tokens pk) :: groups), d0, (pk ++ packs). cbn [map concat]. rewrite concat_app, concat_sing, <- B, <- D, P1, P2, flat_map_app, app_assoc. split; [reflexivity |]. split; [reflexivity |]. split; [exact L0 |].
        unfold total_of in *. rewrite concat_app, len_app. split; [lia | exact P5].
      * destruct (IH t1 total' r1 Ol E ltac:(lia) ltac:(pose proof (len_pos part); lia)) as (groups & rest & packs & P1 & P2 & P3 & P4 & P5).
        exists ((map sing d0 ++ flat_map tokens pk ++ num_bytes n :: map sing part) :: groups), d0, (pk ++ (part ++ rest) :: packs). cbn [map concat]. rewrite concat_app, concat_sing, <- F, <- D, P1, P2. split; [reflexivity |]. split.
        { rewrite flat_map_app. cbn [flat_map]. rewrite tokens_eq, len_app, map_app. replace (len part + len rest) with n by lia. rewrite <- !app_assoc. cbn [app]. rewrite <- !app_assoc. reflexivity. }
        split; [exact L0 |]. unfold total_of in *. rewrite concat_app, len_app. cbn [concat]. rewrite !len_app. split; [lia | exact P5].
  - apply IH; assumption.
Qed.
