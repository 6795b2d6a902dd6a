(** Proof part of C76: markers read one after the other. *)

From Coq Require Import ZArith List Bool Lia.
From Verif Require Import Ints CioModel PpxModel PpxSpec PpxMerge.
Import ListNotations.
Local Open Scope Z_scope.

Definition one (o : option bytes) : list bytes := match o with Some d => [d] | None => [] end.
Lemma present_nth : forall (l : list (option bytes)) n, (length l <= n)%nat -> present l = flat_map (fun k => one (nth k l None)) (seq 0 n).
Proof.
  induction l as [| o l IH]; intros n H.
  - cbn. induction (seq 0 n) as [| k s IHs]; [reflexivity |]. cbn [flat_map]. rewrite <- IHs. destruct k; reflexivity.
  - cbn [length] in H. destruct n as [| n]; [lia |]. cbn [seq flat_map nth present]. fold (present l). rewrite (IH n) by lia. rewrite <- seq_shift. f_equal.
    clear. generalize (seq 0 n). induction l0 as [| k s IHs]; [reflexivity |]. cbn [map flat_map nth]. rewrite IHs. reflexivity.
Qed.
Lemma nth_ext : forall (l : list (option bytes)) n k, nth k (l ++ repeat None n) None = nth k l None.
Proof.
  intros l n k. destruct (Nat.lt_ge_cases k (length l)) as [C | C]; [apply app_nth1, C |]. rewrite app_nth2 by lia. rewrite (nth_overflow l) by lia.
  generalize (k - length l)%nat. induction n as [| n IH]; intros [| j]; cbn; auto.
Qed.
Lemma nth_put : forall (l : list (option bytes)) i d k, (i < length l)%nat -> nth k (firstn i l ++ Some d :: skipn (S i) l) None = if (k =? i)%nat then Some d else nth k l None.
Proof.
  induction l as [| o l IH]; intros [| i] d k H; cbn [length] in H; [lia | lia | |].
  - destruct k; reflexivity.
  - destruct k as [| k]; [reflexivity |]. cbn [firstn app nth skipn Nat.eqb]. apply (IH i d k). lia.
Qed.
Lemma len_put : forall (l : list (option bytes)) i d, (i < length l)%nat -> length (firstn i l ++ Some d :: skipn (S i) l) = length l.
Proof. intros l i d H. rewrite app_length. cbn [length]. rewrite firstn_length, skipn_length. lia. Qed.

Lemma read_new : forall l z d, octet z -> d <> [] -> (length l <= 256)%nat -> nth (Z.to_nat z) l None = None ->
  exists l', read_ppx l (z :: d) = Some l' /\ (length l' <= 256)%nat /\ forall k, nth k l' None = if (k =? Z.to_nat z)%nat then Some d else nth k l None.
Proof.
  intros l z d O D L N. unfold octet in O. unfold read_ppx. destruct (Z.ltb_spec (len (z :: d)) 2) as [K | _].
  { exfalso. unfold len in K. destruct d; [contradiction |]. cbn [length] in K. lia. }
  cbv zeta. set (m := if Z.of_nat (length l) <=? z then l ++ repeat None (Z.to_nat (z + 1) - length l) else l).
  assert (M : forall k, nth k m None = nth k l None) by (intros k; unfold m; destruct (Z.of_nat (length l) <=? z); [apply nth_ext | reflexivity]).
  assert (Lm : (Z.to_nat z < length m)%nat /\ (length m <= 256)%nat) by (unfold m; destruct (Z.leb_spec (Z.of_nat (length l)) z); [rewrite app_length, repeat_length; lia | lia]).
  rewrite M, N. eexists. split; [reflexivity |]. split; [rewrite len_put by apply Lm; apply Lm |]. intros k. rewrite nth_put by apply Lm. rewrite M. reflexivity.
Qed.
Lemma read_old : forall l z d e, octet z -> nth (Z.to_nat z) l None = Some e -> read_ppx l (z :: d) = None.
Proof.
  intros l z d e O N. unfold read_ppx. destruct (len (z :: d) <? 2); [reflexivity |]. cbv zeta.
  assert (Q : nth (Z.to_nat z) (if Z.of_nat (length l) <=? z then l ++ repeat None (Z.to_nat (z + 1) - length l) else l) None = Some e) by (destruct (Z.of_nat (length l) <=? z); [rewrite nth_ext |]; exact N).
  rewrite Q. reflexivity.
Qed.

Definition held (l : list (option bytes)) (segs : list bytes) : Prop := forall k, (k < 256)%nat -> one (nth k l None) = with_index segs (Z.of_nat k).
Lemma with_snoc : forall segs s k, with_index (segs ++ [s]) k = with_index segs k ++ with_index [s] k.
Proof. intros. unfold with_index. apply flat_map_app. Qed.
Lemma with_none : forall segs z, ~ In z (map (hd 0) segs) -> with_index segs z = [].
Proof.
  induction segs as [| s segs IH]; intros z H; [reflexivity |]. cbn [with_index flat_map]. fold (with_index segs z). rewrite IH by (intros X; apply H; right; exact X). destruct s as [| i d]; [reflexivity |].
  destruct (Z.eqb_spec i z) as [-> | N]; [exfalso; apply H; left; reflexivity | reflexivity].
Qed.
Lemma with_some : forall segs z, Forall (fun s => 2 <= len s) segs -> In z (map (hd 0) segs) -> with_index segs z <> [].
Proof.
  induction segs as [| s segs IH]; intros z F H; [contradiction |]. inversion F as [| ? ? F1 F2]; subst. cbn [with_index flat_map]. fold (with_index segs z). destruct s as [| i d]; [unfold len in F1; cbn in F1; lia |]. destruct H as [H | H].
  - cbn in H. rewrite (proj2 (Z.eqb_eq _ _) H). discriminate.
  - intros X. apply app_eq_nil in X. apply (IH z F2 H), X.
Qed.

Definition fine (segs : list bytes) : Prop := Forall (fun s => 2 <= len s) segs /\ NoDup (map (hd 0) segs).
Lemma read_all_is : forall segs done l, Forall (Forall octet) (done ++ segs) -> fine done -> held l done -> (length l <= 256)%nat ->
  (fine (done ++ segs) -> exists l', read_all l segs = Some l' /\ held l' (done ++ segs) /\ (length l' <= 256)%nat) /\ (~ fine (done ++ segs) -> read_all l segs = None).
Proof.
  induction segs as [| s segs IH]; intros done l O F H L; cbn [read_all].
  - rewrite app_nil_r. split; [intros _; exists l; auto | intros N; contradiction].
  - assert (A : done ++ s :: segs = (done ++ [s]) ++ segs) by (rewrite <- app_assoc; reflexivity). rewrite A in *. destruct (Z.lt_ge_cases (len s) 2) as [K | K].
    { unfold read_ppx. rewrite (proj2 (Z.ltb_lt _ _) K). split; [intros [X _]; exfalso | reflexivity]. rewrite !Forall_app in X. destruct X as [[_ X] _]. inversion X; subst. lia. }
    destruct s as [| z d]; [unfold len in K; cbn in K; lia |]. assert (Oz : octet z). { rewrite !Forall_app in O. destruct O as [[_ O] _]. inversion O as [| ? ? O1 O2]; subst. inversion O1; assumption. }
    assert (D : d <> []) by (intros ->; unfold len in K; cbn in K; lia). pose proof Oz as Oz'. unfold octet in Oz'. pose proof (H (Z.to_nat z) ltac:(lia)) as Hz. rewrite Z2Nat.id in Hz by lia.
    destruct (in_dec Z.eq_dec z (map (hd 0) done)) as [I | I].
    + pose proof (with_some done z (proj1 F) I) as W. destruct (nth (Z.to_nat z) l None) as [e |] eqn:N; [| exfalso; apply W; symmetry; exact Hz]. rewrite (read_old l z d e Oz N). split; [intros [_ X]; exfalso | reflexivity].
      rewrite <- app_assoc, map_app in X. cbn [app map hd] in X. apply NoDup_remove in X. apply (proj2 X). apply in_or_app. left. exact I.
    + rewrite (with_none done z I) in Hz. destruct (nth (Z.to_nat z) l None) as [e |] eqn:N; [discriminate |]. destruct (read_new l z d Oz D L N) as (l' & R & L' & E). rewrite R. apply IH; [exact O | | | exact L'].
      * split; [apply Forall_app; split; [apply F | constructor; [exact K | constructor]] |]. rewrite map_app. cbn [map hd]. apply NoDup_Add with z (map (hd 0) done); [| split; [apply F | exact I]]. rewrite <- (app_nil_r (map (hd 0) done)) at 1. apply Add_app.
      * intros k Kk. rewrite E, with_snoc. unfold with_index at 2. cbn [flat_map]. rewrite app_nil_r. destruct (Nat.eqb_spec k (Z.to_nat z)) as [-> | Nk].
        -- rewrite Z2Nat.id by lia. rewrite Z.eqb_refl, (with_none done z I). reflexivity.
        -- destruct (Z.eqb_spec z (Z.of_nat k)); [exfalso; lia |]. rewrite app_nil_r. apply H, Kk.
Qed.
Lemma flat_ext : forall {A B} (f g : A -> list B) l, (forall x, In x l -> f x = g x) -> flat_map f l = flat_map g l.
Proof. induction l as [| a l IH]; intros H; [reflexivity |]. cbn [flat_map]. rewrite H by (left; reflexivity). rewrite IH; [reflexivity |]. intros x X. apply H. right. exact X. Qed.
Lemma read_all_ok : forall segs, Forall (Forall octet) segs -> fine segs -> exists l, read_all [] segs = Some l /\ present l = by_index segs /\ (length l <= 256)%nat.
Proof.
  intros segs O F. destruct (read_all_is segs [] [] O) as [R _].
  - split; constructor.
  - intros k _. destruct k; reflexivity.
  - cbn. lia.
  - destruct (R F) as (l & E & H & L). exists l. split; [exact E |]. split; [| exact L]. rewrite (present_nth l 256 L). unfold by_index. apply flat_ext. intros k Ik. apply in_seq in Ik. apply H. lia.
Qed.
Lemma read_all_bad : forall segs, Forall (Forall octet) segs -> ~ fine segs -> read_all [] segs = None.
Proof.
  intros segs O F. destruct (read_all_is segs [] [] O) as [_ R]; [split; constructor | intros k _; destruct k; reflexivity | cbn; lia | exact (R F)].
Qed.

(** The PPT buffer. *)
Lemma present_some : forall d l, present (Some d :: l) = d :: present l.
Proof. reflexivity. Qed.
Lemma present_none : forall l, present (None :: l) = present l.
Proof. reflexivity. Qed.
Lemma present_in : forall l (P : bytes -> Prop), Forall P (present l) <-> forall d, In (Some d) l -> P d.
Proof.
  induction l as [| [d |] l IH]; intros P; rewrite ?present_some, ?present_none.
  - split; [intros _ d [] | intros _; constructor].
  - split; [intros F; inversion F as [| ? ? F1 F2]; subst; intros e [H | H]; [injection H as <-; exact F1 | exact (proj1 (IH P) F2 e H)] | intros H; constructor; [apply H; left; reflexivity | apply IH; intros e I; apply H; right; exact I]].
  - rewrite IH. split; [intros H d [X | X]; [discriminate | exact (H d X)] | intros H d I; apply H; right; exact I].
Qed.
Lemma ppt_size_is : forall l, len (concat (present l)) < 2 ^ 32 -> ppt_size l = len (concat (present l)).
Proof.
  induction l as [| [d |] l IH]; rewrite ?present_some, ?present_none; cbn [ppt_size concat]; intros H; [reflexivity | | apply IH, H]. rewrite len_app in *. pose proof (len_pos d). pose proof (len_pos (concat (present l))). rewrite IH by lia. unfold u32. apply Z.mod_small. lia.
Qed.
Lemma ppt_copy_is : forall l size out, len out + len (concat (present l)) <= size -> ppt_copy l size out = Some (out ++ concat (present l)).
Proof.
  induction l as [| [d |] l IH]; intros size out; rewrite ?present_some, ?present_none; cbn [ppt_copy concat]; intros H; [rewrite app_nil_r; reflexivity | | apply IH, H]. rewrite len_app in H. pose proof (len_pos d). pose proof (len_pos (concat (present l))).
  rewrite copy_ok by lia. rewrite firstn_len, IH by (rewrite len_app; lia). rewrite <- app_assoc. reflexivity.
Qed.
Lemma in_by : forall segs d, In d (by_index segs) -> exists i, In (i :: d) segs.
Proof.
  intros segs d H. apply in_flat_map in H. destruct H as (k & _ & H). apply in_flat_map in H. destruct H as (s & S & H). destruct s as [| i e]; [contradiction |]. destruct (i =? Z.of_nat k); [| contradiction]. destruct H as [<- | []]. exists i. exact S.
Qed.
Lemma present_count : forall l : list (option bytes), (length (present l) <= length l)%nat.
Proof. induction l as [| [d |] l IH]; [cbn; lia | |]; rewrite ?present_some, ?present_none; cbn [length]; lia. Qed.
Lemma concat_most : forall (l : list bytes) m, Forall (fun d => len d <= m) l -> len (concat l) <= Z.of_nat (length l) * m.
Proof. induction l as [| d l IH]; intros m H; [cbn; lia |]. inversion H; subst. cbn [concat length]. rewrite len_app. specialize (IH m H3). lia. Qed.
