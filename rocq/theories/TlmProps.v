(** C82: the lengths of tile-parts in the main header. *)

From Coq Require Import ZArith List Bool Lia.
From Verif Require Import Ints HdrModel HdrBytes CioModel CioProps TlmModel.
Import ListNotations.
Local Open Scope Z_scope.

(** ** Statements *)

(** The tile-parts in the order written: those of the progressions of the tiles. *)
Definition prog_parts (part : Z -> nat -> nat -> list Z) (tile : Z) (pino : nat) (c : Z) : list (Z * list Z) :=
  map (fun k => (tile, part tile pino k)) (seq 0 (Z.to_nat c)).
Fixpoint progs_parts (part : Z -> nat -> nat -> list Z) (tile : Z) (pino : nat) (cs : list Z) : list (Z * list Z) :=
  match cs with [] => [] | c :: cs => prog_parts part tile pino c ++ progs_parts part tile (S pino) cs end.
Fixpoint all_parts (part : Z -> nat -> nat -> list Z) (tile : Z) (counts : list (list Z)) : list (Z * list Z) :=
  match counts with [] => [] | cs :: counts => progs_parts part tile 0 cs ++ all_parts part (tile + 1) counts end.

(** Annex A.7.1: the segment is marker, length, number, sizes of the fields, and entries
    of a tile number and a length. *)
Fixpoint entries (st sp n : nat) (d : list Z) : option (list (Z * Z)) :=
  match d with
  | [] => Some []
  | _ =>
      match n with
      | O => None
      | S n =>
          if (length d <? st + sp)%nat then None else
          option_map (cons (be_value (firstn st d), be_value (firstn sp (skipn st d)))) (entries st sp n (skipn (st + sp) d))
      end
  end.
Definition tlm_says (d : list Z) : option (list (Z * Z)) :=
  match d with
  | m1 :: m0 :: l1 :: l0 :: z :: s :: rest =>
      if (m1 =? 255) && (m0 =? 85) && (l1 * 256 + l0 =? 4 + Z.of_nat (length rest))
      then entries (Z.to_nat (s / 16 mod 4)) (if s / 64 mod 2 =? 0 then 2 else 4) (length rest) rest else None
  | _ => None
  end.
Definition sum (l : list Z) : Z := fold_right Z.add 0 l.
Definition bytes_of (ps : list (Z * list Z)) : list Z := concat (map snd ps).
(** Numbers of tile-parts: one progression at least, which has at least one tile-part. *)
Definition counts_ok (cs : list Z) : Prop := match cs with [] => False | c :: cs => 1 <= c /\ Forall (fun c => 0 <= c) cs end.

(** ** Proofs *)
Lemma put_out_end : forall d l, put_out d (Out l (length l)) = Out (l ++ d) (length (l ++ d)).
Proof. intros d l. unfold put_out. cbn [o_pos o_bytes]. rewrite firstn_all, skipn_all2 by lia. rewrite app_nil_r, app_length. reflexivity. Qed.
Lemma put_buf_ok : forall d s a rest, n_buf s = a ++ rest -> n_cur s = length a -> (length d <= length rest)%nat ->
  put_buf d s = Some (Lens ((a ++ d) ++ skipn (length d) rest) (length (a ++ d))).
Proof.
  intros d s a rest E C L. unfold put_buf. rewrite E, C, app_length. destruct (Nat.leb_spec (length a + length d) (length a + length rest)); [| lia]. do 2 f_equal; [| rewrite app_length; reflexivity].
  rewrite firstn_app, Nat.sub_diag, firstn_all, firstn_O, app_nil_r, <- app_assoc. do 2 f_equal. rewrite skipn_app, skipn_all2 by lia. cbn [app]. f_equal. lia.
Qed.
Definition entry (is_byte : bool) (p : Z * list Z) : list Z := be (if is_byte then 1 else 2) (fst p) ++ be 4 (Z.of_nat (length (snd p))).
Definition width (is_byte : bool) : nat := if is_byte then 5 else 6.
Lemma entry_len : forall b p, length (entry b p) = width b.
Proof. intros [] p; unfold entry; rewrite app_length, !be_len by lia; reflexivity. Qed.
Lemma entries_len : forall b ps, length (flat_map (entry b) ps) = (width b * length ps)%nat.
Proof. intros b ps. induction ps as [| p ps IH]; [cbn; lia |]. cbn [flat_map length]. rewrite app_length, entry_len, IH. lia. Qed.

(** The state after the parts [ps], with [room] bytes of the buffer left. *)
Definition stage (b : bool) (head : list Z) (ps : list (Z * list Z)) (st : out * lens) : Prop :=
  fst st = Out (head ++ bytes_of ps) (length (head ++ bytes_of ps)) /\
  exists rest, n_buf (snd st) = flat_map (entry b) ps ++ rest /\ n_cur (snd st) = length (flat_map (entry b) ps).
Definition room (b : bool) (ps : list (Z * list Z)) (st : out * lens) : Z := Z.of_nat (length (n_buf (snd st))) - Z.of_nat (width b * length ps).

Lemma bytes_snoc : forall ps p, bytes_of (ps ++ [p]) = bytes_of ps ++ snd p.
Proof. intros ps p. unfold bytes_of. rewrite map_app, concat_app. cbn [map concat]. rewrite app_nil_r. reflexivity. Qed.
Lemma counts_nonneg : forall cs, counts_ok cs -> Forall (fun c => 0 <= c) cs /\ 1 <= sum cs.
Proof.
  intros [| c cs] H; [destruct H |]. destruct H as [H1 H2]. split; [constructor; [lia | exact H2] |]. cbn [sum fold_right]. assert (0 <= fold_right Z.add 0 cs); [| lia].
  clear - H2. induction H2; cbn [fold_right]; lia.
Qed.
Section Parts.
Context (part : Z -> nat -> nat -> list Z).
Hypothesis (Hpart : forall t p k, Z.of_nat (length (part t p k)) < 2 ^ 32).

Lemma part_step : forall b head ps st t pino k, stage b head ps st -> Z.of_nat (width b * S (length ps)) <= Z.of_nat (length (n_buf (snd st))) ->
  exists st', write_part part b t pino k st = Some st' /\ stage b head (ps ++ [(t, part t pino k)]) st' /\ length (n_buf (snd st')) = length (n_buf (snd st)).
Proof.
  intros b head ps [o s] t pino k (Eo & rest & Eb & Ec) L. cbn [fst snd] in *. unfold write_part, update_tlm. rewrite u32_id by (pose proof (Hpart t pino k); lia).
  set (d := part t pino k). set (x := be (if b then 1 else 2) t). set (y := be 4 (Z.of_nat (length d))).
  assert (Lxy : (length x + length y)%nat = width b) by (unfold x, y; destruct b; rewrite !be_len by lia; reflexivity).
  assert (Lr : (width b <= length rest)%nat) by (rewrite Eb, app_length, entries_len in L; lia).
  rewrite (put_buf_ok x s (flat_map (entry b) ps) rest Eb Ec ltac:(lia)).
  rewrite (put_buf_ok y (Lens ((flat_map (entry b) ps ++ x) ++ skipn (length x) rest) (length (flat_map (entry b) ps ++ x))) (flat_map (entry b) ps ++ x) (skipn (length x) rest) eq_refl eq_refl ltac:(rewrite skipn_length; lia)).
  eexists. split; [reflexivity |]. assert (Ef : flat_map (entry b) (ps ++ [(t, d)]) = (flat_map (entry b) ps ++ x) ++ y).
  { rewrite flat_map_app. cbn [flat_map]. rewrite app_nil_r, <- app_assoc. reflexivity. }
  split; [split |]; cbn [fst snd n_buf n_cur].
  - rewrite Eo, put_out_end, bytes_snoc, app_assoc. reflexivity.
  - exists (skipn (length y) (skipn (length x) rest)). rewrite Ef. split; reflexivity.
  - rewrite Eb, !app_length, !skipn_length. lia.
Qed.
Definition later (b : bool) (head : list Z) (ps : list (Z * list Z)) (st : out * lens) (run : option (out * lens)) (qs : list (Z * list Z)) : Prop :=
  Z.of_nat (width b * length (ps ++ qs)) <= Z.of_nat (length (n_buf (snd st))) ->
  exists st', run = Some st' /\ stage b head (ps ++ qs) st' /\ length (n_buf (snd st')) = length (n_buf (snd st)).
Lemma parts_step : forall b head t pino n k ps st, stage b head ps st -> later b head ps st (write_parts part b t pino k n st) (map (fun k => (t, part t pino k)) (seq k n)).
Proof.
  intros b head t pino. induction n as [| n IH]; intros k ps st S0 L; cbn [write_parts seq map] in *.
  - exists st. rewrite app_nil_r. split; [reflexivity |]. split; [exact S0 | reflexivity].
  - rewrite app_length in L. cbn [length] in L. destruct (part_step b head ps st t pino k S0 ltac:(nia)) as (s1 & -> & S1 & L1).
    destruct (IH (S k) _ s1 S1) as (s2 & E2 & S2 & L2); [rewrite !app_length; cbn [length]; rewrite L1; nia |]. exists s2. split; [exact E2 |]. split; [rewrite <- app_assoc in S2; exact S2 | congruence].
Qed.
Lemma progs_step : forall b head t cs pino ps st, stage b head ps st -> later b head ps st (write_progs part b t pino cs st) (progs_parts part t pino cs).
Proof.
  intros b head t. induction cs as [| c cs IH]; intros pino ps st S0 L; cbn [write_progs progs_parts] in *.
  - exists st. rewrite app_nil_r. split; [reflexivity |]. split; [exact S0 | reflexivity].
  - rewrite !app_length in L. destruct (parts_step b head t pino (Z.to_nat c) 0 ps st S0) as (s1 & E1 & S1 & L1); [unfold prog_parts in L; rewrite app_length; nia |].
    rewrite E1. destruct (IH (S pino) _ s1 S1) as (s2 & E2 & S2 & L2); [unfold prog_parts in L; rewrite !app_length, L1; nia |]. exists s2. split; [exact E2 |]. split; [rewrite <- app_assoc in S2; exact S2 | congruence].
Qed.
Lemma tile_step : forall b head t cs ps st, counts_ok cs -> stage b head ps st -> later b head ps st (write_tile part b t cs st) (progs_parts part t 0 cs).
Proof.
  intros b head t [| c cs] ps st Hc S0 L; [destruct Hc |]. destruct Hc as [Hc _]. cbn [write_tile progs_parts] in *. unfold prog_parts in *.
  assert (Es : seq 0 (Z.to_nat c) = 0%nat :: seq 1 (Z.to_nat (c - 1))) by (replace (Z.to_nat c) with (S (Z.to_nat (c - 1))) by lia; reflexivity). rewrite Es in *. cbn [map app] in *.
  rewrite app_length in L. cbn [length] in L. rewrite app_length in L.
  destruct (part_step b head ps st t 0 0 S0 ltac:(nia)) as (s0 & -> & S1 & L0).
  destruct (parts_step b head t 0 (Z.to_nat (c - 1)) 1 _ s0 S1) as (s1 & E1 & S2 & L1); [rewrite !app_length; cbn [length]; rewrite L0; nia |]. rewrite E1.
  destruct (progs_step b head t cs 1 _ s1 S2) as (s2 & E2 & S3 & L2); [rewrite !app_length; cbn [length]; rewrite L1, L0; nia |]. exists s2. split; [exact E2 |].
  split; [rewrite <- !app_assoc in S3; exact S3 | congruence].
Qed.
Lemma tiles_step : forall b head counts t ps st, Forall counts_ok counts -> stage b head ps st -> later b head ps st (write_tiles part b t counts st) (all_parts part t counts).
Proof.
  intros b head. induction counts as [| cs counts IH]; intros t ps st Hc S0 L; cbn [write_tiles all_parts] in *.
  - exists st. rewrite app_nil_r. split; [reflexivity |]. split; [exact S0 | reflexivity].
  - inversion Hc; subst. rewrite !app_length in L. destruct (tile_step b head t cs ps st H1 S0) as (s1 & E1 & S1 & L1); [rewrite app_length; nia |]. rewrite E1.
    destruct (IH (t + 1) _ s1 H2 S1) as (s2 & E2 & S2 & L2); [rewrite !app_length, L1; nia |]. exists s2. split; [exact E2 |]. split; [rewrite <- app_assoc in S2; exact S2 | congruence].
Qed.
Lemma progs_count : forall t cs pino, Forall (fun c => 0 <= c) cs -> Z.of_nat (length (progs_parts part t pino cs)) = sum cs.
Proof.
  intros t. induction cs as [| c cs IH]; intros pino H; [reflexivity |]. inversion H; subst. cbn [progs_parts sum fold_right]. unfold prog_parts. rewrite app_length, map_length, seq_length, Nat2Z.inj_add, IH by assumption. fold (sum cs). lia.
Qed.
Lemma all_count : forall counts t, Forall counts_ok counts -> Z.of_nat (length (all_parts part t counts)) = sum (map sum counts).
Proof.
  induction counts as [| cs counts IH]; intros t H; [reflexivity |]. inversion H; subst. cbn [all_parts map sum fold_right]. rewrite app_length, Nat2Z.inj_add, IH, progs_count by (try apply counts_nonneg; assumption). reflexivity.
Qed.
Lemma all_tiles : forall counts t q, Forall counts_ok counts -> In q (all_parts part t counts) -> t <= fst q < t + Z.of_nat (length counts) /\ exists p k, snd q = part (fst q) p k.
Proof.
  assert (X : forall t q cs pino, In q (progs_parts part t pino cs) -> fst q = t /\ exists p k, snd q = part (fst q) p k).
  { intros t q. induction cs as [| c cs IH]; intros pino H; [destruct H |]. cbn [progs_parts] in H. apply in_app_or in H. destruct H as [H | H]; [| eapply IH; exact H].
    unfold prog_parts in H. apply in_map_iff in H. destruct H as (k & <- & _). split; [reflexivity |]. exists pino, k. reflexivity. }
  induction counts as [| cs counts IH]; intros t q H I; [destruct I |]. inversion H; subst. cbn [all_parts length] in *. apply in_app_or in I. destruct I as [I | I].
  - destruct (X _ _ _ _ I) as [-> E]. split; [lia | exact E].
  - destruct (IH (t + 1) q H3 I) as [Q E]. split; [lia | exact E].
Qed.
End Parts.
Lemma tiles_below : forall counts, Forall counts_ok counts -> Z.of_nat (length counts) <= sum (map sum counts).
Proof.
  induction counts as [| cs counts IH]; intros H; [cbn; lia |]. inversion H; subst. specialize (IH H3). pose proof (proj2 (counts_nonneg cs H2)). cbn [length map sum fold_right]. unfold sum in *. lia.
Qed.
Lemma calc_sum : forall counts, Forall counts_ok counts -> sum (map sum counts) < 2 ^ 32 -> calculate_tp counts = sum (map sum counts).
Proof.
  intros counts H B. unfold calculate_tp.
  assert (Y : forall cs n, Forall (fun c => 0 <= c) cs -> 0 <= n -> n + sum cs < 2 ^ 32 -> fold_left (fun n c => u32 (n + c)) cs n = n + sum cs).
  { induction cs as [| c cs IH]; intros n Hs Hn Hb; cbn [fold_left sum fold_right] in *; [lia |]. inversion Hs; subst. fold (sum cs) in *.
    assert (0 <= sum cs) by (clear - H3; induction H3; cbn [sum fold_right]; [lia |]; fold (sum l) in *; lia). rewrite u32_id by lia. rewrite IH by (try assumption; lia). lia. }
  assert (N : forall l, Forall counts_ok l -> 0 <= sum (map sum l)). { intros l Hl. pose proof (tiles_below l Hl). lia. }
  assert (X : forall l n, Forall counts_ok l -> 0 <= n -> n + sum (map sum l) < 2 ^ 32 -> fold_left (fun n cs => fold_left (fun n c => u32 (n + c)) cs n) l n = n + sum (map sum l)).
  { induction l as [| cs l IH]; intros n Hl Hn Hb; cbn [fold_left map sum fold_right] in *; [lia |]. inversion Hl; subst. fold (sum (map sum l)) in *. destruct (counts_nonneg cs H2) as [Q1 Q2]. specialize (N l H3).
    rewrite Y by (try assumption; lia). rewrite IH by (try assumption; lia). lia. }
  rewrite X by (try assumption; lia). lia.
Qed.

Lemma be_value_of : forall n v, (1 <= n <= 4)%nat -> 0 <= v < 256 ^ Z.of_nat n -> be_value (be n v) = v.
Proof. intros n v Hn Hv. rewrite <- from_be_value by apply be_bytes. apply be_value_be; assumption. Qed.
Lemma entries_read : forall (b : bool) (ps : list (Z * list Z)) n, (length ps <= n)%nat -> (forall q, In q ps -> 0 <= fst q < (if b then 256 else 65536) /\ Z.of_nat (length (snd q)) < 2 ^ 32) ->
  entries (if b then 1 else 2) 4 n (flat_map (entry b) ps) = Some (map (fun q => (fst q, Z.of_nat (length (snd q)))) ps).
Proof.
  intros b. induction ps as [| p ps IH]; intros n Hn H; [destruct n; reflexivity |]. destruct n as [| n]; [cbn in Hn; lia |]. cbn [flat_map map].
  set (w := if b then 1%nat else 2%nat). set (rest := flat_map (entry b) ps). destruct (H p (or_introl eq_refl)) as [H1 H2].
  assert (Hw : (1 <= w <= 4)%nat) by (unfold w; destruct b; lia).
  assert (Le : length (entry b p) = (w + 4)%nat) by (rewrite entry_len; unfold w; destruct b; reflexivity).
  assert (Ee : entry b p = be w (fst p) ++ be 4 (Z.of_nat (length (snd p)))) by (unfold entry, w; destruct b; reflexivity).
  assert (Sn : skipn (w + 4) (entry b p ++ rest) = rest) by (rewrite skipn_app, Le, Nat.sub_diag, skipn_all2 by lia; reflexivity).
  assert (F1 : firstn w (entry b p ++ rest) = be w (fst p)).
  { rewrite Ee, <- app_assoc, firstn_app, be_len, Nat.sub_diag, firstn_O, app_nil_r by lia. rewrite firstn_all2; [reflexivity | rewrite be_len; lia]. }
  assert (F2 : firstn 4 (skipn w (entry b p ++ rest)) = be 4 (Z.of_nat (length (snd p)))).
  { rewrite Ee, <- app_assoc, skipn_app. rewrite (skipn_all2 (be w (fst p))) by (rewrite be_len; lia). rewrite (be_len w) by exact Hw. rewrite Nat.sub_diag. cbn [app skipn]. rewrite firstn_app, be_len, Nat.sub_diag, firstn_O, app_nil_r by lia. rewrite firstn_all2; [reflexivity | rewrite be_len; lia]. }
  destruct (entry b p ++ rest) as [| z zs] eqn:Ed; [apply (f_equal (@length Z)) in Ed; rewrite app_length, Le in Ed; cbn [length] in Ed; lia |]. cbn [entries].
  assert (Ld : (w + 4 <= length (z :: zs))%nat) by (rewrite <- Ed, app_length; lia). destruct (Nat.ltb_spec (length (z :: zs)) (w + 4)); [lia |].
  rewrite Sn, F1, F2. unfold rest, w. rewrite IH by (cbn in Hn; try lia; intros q I; apply H; right; exact I). cbn [option_map]. fold w.
  rewrite !be_value_of; try reflexivity; try lia; unfold w; destruct b; cbn; lia.
Qed.

(** For any number of tile-parts that is accepted, the code-stream is the header with a
    TLM segment, the tile-parts and the end marker; the segment has the tile numbers and
    lengths of the tile-parts in order, and these lengths lead to each of them. *)
Theorem c82_tlm : forall part pre post counts buf, (forall t p k, Z.of_nat (length (part t p k)) < 2 ^ 32) -> Forall counts_ok counts -> sum (map sum counts) <= 10921 ->
  Z.of_nat (length buf) = 6 * sum (map sum counts) ->
  exists tlm, write_stream part pre post counts buf =
      Some (Out (pre ++ tlm ++ post ++ bytes_of (all_parts part 0 counts) ++ [255; 217]) (length (pre ++ tlm ++ post ++ bytes_of (all_parts part 0 counts) ++ [255; 217]))) /\
    tlm_says tlm = Some (map (fun q => (fst q, Z.of_nat (length (snd q)))) (all_parts part 0 counts)) /\
    forall i t d, nth_error (all_parts part 0 counts) i = Some (t, d) ->
      let at_ := Z.of_nat (length (pre ++ tlm ++ post)) + sum (map (fun q => Z.of_nat (length (snd q))) (firstn i (all_parts part 0 counts))) in
      firstn (length d) (skipn (Z.to_nat at_) (pre ++ tlm ++ post ++ bytes_of (all_parts part 0 counts) ++ [255; 217])) = d.
Proof.
  intros part pre post counts buf Hp Hc Hs Hb. set (total := sum (map sum counts)) in *. set (ps := all_parts part 0 counts).
  assert (T0 : 0 <= total) by (pose proof (tiles_below counts Hc); unfold total; lia).
  assert (Np : Z.of_nat (length ps) = total) by (apply all_count; assumption).
  set (b := total <=? 255). set (w := if b then 5 else 6).
  assert (Hw : w = Z.of_nat (width b)) by (unfold w, width; destruct b; reflexivity).
  assert (Hw6 : 5 <= w <= 6) by (unfold w; destruct b; lia).
  assert (Ew : (if total <=? 255 then 5 else 6) = w) by reflexivity.
  set (hd6 := be 2 TLM ++ be 2 (4 + w * total) ++ be 1 0 ++ be 1 (if w =? 5 then 80 else 96)).
  assert (L6 : length hd6 = 6%nat) by (unfold hd6; rewrite !app_length, !be_len by lia; reflexivity).
  assert (Et : forall es, write_tlm total es = Some (hd6 ++ es)).
  { intros es. unfold write_tlm. destruct (Z.ltb_spec 10921 total); [lia |]. rewrite Ew. rewrite (u32_id (w * total)) by nia. rewrite (u32_id (6 + w * total)) by nia. replace (6 + w * total - 2) with (4 + w * total) by lia. rewrite u32_id by nia.
    unfold hd6. rewrite <- !app_assoc. reflexivity. }
  set (tlm := hd6 ++ flat_map (entry b) ps). exists tlm.
  set (zs := repeat 0 (Z.to_nat (w * total))). assert (Lz : length zs = length (flat_map (entry b) ps)) by (unfold zs; rewrite repeat_length, entries_len; nia).
  assert (Htile : forall q, In q ps -> 0 <= fst q < (if b then 256 else 65536) /\ Z.of_nat (length (snd q)) < 2 ^ 32).
  { intros q I. destruct (all_tiles part Hp counts 0 q Hc I) as [Q (p & k & E)]. pose proof (tiles_below counts Hc) as TB. fold total in TB. rewrite E. split; [| apply Hp]. unfold b. destruct (Z.leb_spec total 255); lia. }
  split; [| split].
  - unfold write_stream. rewrite calc_sum by (try assumption; fold total; lia). fold total. rewrite Et. rewrite Ew. rewrite (u32_id (w * total)), (u32_id (6 * total)) by nia. fold zs. fold b.
    change (Out [] 0) with (Out [] (length (@nil Z))). rewrite !put_out_end. cbn [app o_pos].
    set (head := (pre ++ hd6 ++ zs) ++ post).
    destruct (tiles_step part Hp b head counts 0 [] (Out head (length head), Lens (firstn (Z.to_nat (6 * total)) buf) 0) Hc) as (st' & E & S' & L').
    { split; [cbn [fst bytes_of map concat]; rewrite app_nil_r; reflexivity |]. eexists. split; reflexivity. }
    { cbn [app snd n_buf]. fold ps. rewrite firstn_all2 by lia. unfold width. destruct b; lia. }
    rewrite E. destruct st' as [o s]. destruct S' as (Eo & rest & Eb & Ec). cbn [fst snd app n_buf] in Eo, Eb, Ec, L'. fold ps in Eo, Eb, Ec. rewrite Eo, put_out_end.
    unfold write_updated_tlm. replace (if b then 5 else 6) with w by reflexivity. rewrite u32_id by nia. rewrite firstn_all2 in L' by lia.
    assert (Ls : Z.to_nat (w * total) = length (flat_map (entry b) ps)) by (rewrite entries_len; nia).
    destruct (Nat.ltb_spec (length (n_buf s)) (Z.to_nat (w * total))) as [Q | Q]; [rewrite L' in Q; nia |].
    rewrite Ls, Eb, firstn_app, Nat.sub_diag, firstn_all, firstn_O, app_nil_r. change (be 2 65497) with [255; 217].
    unfold seek, put_out. cbn [o_pos o_bytes]. f_equal. unfold head, tlm. f_equal.
    + set (tail := bytes_of ps ++ [255; 217]). replace (((pre ++ hd6 ++ zs) ++ post) ++ bytes_of ps) with (pre ++ hd6 ++ zs ++ post ++ bytes_of ps) by (rewrite <- !app_assoc; reflexivity).
      replace ((pre ++ hd6 ++ zs ++ post ++ bytes_of ps) ++ [255; 217]) with ((pre ++ hd6) ++ zs ++ post ++ tail) by (unfold tail; rewrite <- !app_assoc; reflexivity).
      replace (6 + length pre)%nat with (length (pre ++ hd6)) by (rewrite app_length, L6; lia).
      rewrite firstn_app, Nat.sub_diag, firstn_all, firstn_O, app_nil_r. rewrite skipn_app, skipn_all2 by lia. replace (length (pre ++ hd6) + length (flat_map (entry b) ps) - length (pre ++ hd6))%nat with (length zs) by lia.
      rewrite skipn_app, skipn_all, Nat.sub_diag. cbn [app skipn]. rewrite <- !app_assoc. reflexivity.
    + rewrite !app_length. rewrite Lz. lia.
  - unfold tlm, hd6. assert (WT : 0 <= w * total <= 65526) by (clear - Hw6 Hs T0; nia). assert (B2 : be 2 (4 + w * total) = [(4 + w * total) / 256; (4 + w * total) mod 256]).
    { pose proof (be_len 2 (4 + w * total) ltac:(lia)) as L2. pose proof (be_value_of 2 (4 + w * total) ltac:(lia) ltac:(change (256 ^ Z.of_nat 2) with 65536; lia)) as V2. pose proof (be_bytes 2 (4 + w * total)) as Y2.
      destruct (be 2 (4 + w * total)) as [| x1 [| x0 [| ? ?]]]; try discriminate L2. unfold be_value in V2. cbn [fold_left] in V2. inversion Y2 as [| ? ? Y3 Y4]; subst. inversion Y4; subst. unfold is_byte in *. clear - V2 Y3 H1. cbv beta in Y3, H1.
      rewrite <- V2. f_equal; [| f_equal]; [apply (Z.div_unique _ _ _ x0) | apply (Z.mod_unique _ _ x1)]; lia. }
    rewrite B2. assert (Eb : be 1 (if w =? 5 then 80 else 96) = [if w =? 5 then 80 else 96]) by (destruct (w =? 5); reflexivity). rewrite Eb.
    change (be 2 TLM) with [255; 85]. change (be 1 0) with [0]. cbn [app tlm_says].
    assert (El : (4 + w * total) / 256 * 256 + (4 + w * total) mod 256 = 4 + Z.of_nat (length (flat_map (entry b) ps))) by (rewrite entries_len, Nat2Z.inj_mul, Np, <- Hw; pose proof (Z.div_mod (4 + w * total) 256); lia).
    rewrite El, !Z.eqb_refl. cbn [andb].
    replace (Z.to_nat ((if w =? 5 then 80 else 96) / 16 mod 4)) with (if b then 1%nat else 2%nat) by (unfold w; destruct b; reflexivity).
    replace (if (if w =? 5 then 80 else 96) / 64 mod 2 =? 0 then 2%nat else 4%nat) with 4%nat by (unfold w; destruct b; reflexivity).
    apply entries_read; [| exact Htile]. rewrite entries_len. unfold width. destruct b; lia.
  - intros i t d N at_. assert (Sp : exists l1 l2, ps = l1 ++ (t, d) :: l2 /\ length l1 = i) by (apply nth_error_split; exact N). destruct Sp as (l1 & l2 & El & Li).
    assert (A : at_ = Z.of_nat (length (pre ++ tlm ++ post) + length (bytes_of l1))).
    { unfold at_. fold ps. rewrite El, firstn_app, Li, Nat.sub_diag, firstn_O, app_nil_r, firstn_all2 by lia. rewrite Nat2Z.inj_add. f_equal. clear. induction l1 as [| q l1 IH]; [reflexivity |]. cbn [map sum fold_right]. fold (sum (map (fun q => Z.of_nat (length (snd q))) l1)).
      rewrite IH. unfold bytes_of. cbn [map concat]. rewrite app_length. lia. }
    rewrite A, Nat2Z.id. assert (Eb : bytes_of ps = bytes_of l1 ++ d ++ bytes_of l2) by (rewrite El; unfold bytes_of; rewrite map_app, concat_app; reflexivity).
    rewrite Eb. replace (pre ++ tlm ++ post ++ (bytes_of l1 ++ d ++ bytes_of l2) ++ [255; 217]) with (((pre ++ tlm ++ post) ++ bytes_of l1) ++ d ++ bytes_of l2 ++ [255; 217]) by (rewrite <- !app_assoc; reflexivity).
    rewrite <- app_length. rewrite skipn_app, skipn_all, Nat.sub_diag. cbn [app skipn]. rewrite firstn_app, Nat.sub_diag, firstn_all, firstn_O, app_nil_r. reflexivity.
Qed.
(** More are refused. *)
Theorem c82_limit : forall part pre post counts buf, Forall counts_ok counts -> 10921 < sum (map sum counts) < 2 ^ 32 -> write_stream part pre post counts buf = None.
Proof.
  intros part pre post counts buf Hc H. unfold write_stream. rewrite calc_sum by (try assumption; lia). unfold write_tlm. destruct (Z.ltb_spec 10921 (sum (map sum counts))); [reflexivity | lia].
Qed.

(** ** Examples *)
(** Two tiles; the second one has two progressions. *)
Definition ex_part (t : Z) (p k : nat) : list Z := repeat t (S (p + k)).
Example c82_ex : option_map o_bytes (write_stream ex_part [1; 2] [3] [[2]; [1; 1]] (repeat 9 24)) =
  Some ([1; 2] ++ [255; 85; 0; 24; 0; 80; 0; 0; 0; 0; 1; 0; 0; 0; 0; 2; 1; 0; 0; 0; 1; 1; 0; 0; 0; 2] ++ [3] ++ [0; 0; 0; 1; 1; 1] ++ [255; 217]).
Proof. vm_compute. reflexivity. Qed.
Example c82_ex_says : tlm_says [255; 85; 0; 24; 0; 80; 0; 0; 0; 0; 1; 0; 0; 0; 0; 2; 1; 0; 0; 0; 1; 1; 0; 0; 0; 2] = Some [(0, 1); (0, 2); (1, 1); (1, 2)].
Proof. vm_compute. reflexivity. Qed.
Example c82_ex_in : Forall counts_ok [[2]; [1; 1]].
Proof. repeat (constructor; [split; [lia | repeat constructor; lia] |]). constructor. Qed.
(** A progression counted with no tile-parts, as one without precincts is: its first
    tile-part is written all the same, and its entry is put outside the buffer. *)
Theorem c82_none_refuted : write_stream ex_part [1; 2] [3] [[0]] (repeat 9 100) = None.
Proof. vm_compute. reflexivity. Qed.

Print Assumptions c82_tlm.
Print Assumptions c82_limit.
