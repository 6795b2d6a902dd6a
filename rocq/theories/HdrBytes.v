(** Fields and framing of marker segments. *)

From Coq Require Import ZArith List Bool Lia.
From Verif Require Import Ints Mem CioModel CioProps HdrModel.
Import ListNotations.
Local Open Scope Z_scope.

Definition bytes (d : list Z) : Prop := Forall is_byte d.

Lemma be_len : forall n v, (1 <= n <= 4)%nat -> List.length (be n v) = n.
Proof. intros n v H. unfold be. rewrite skipn_length. cbn [List.length to_be4]. lia. Qed.

Lemma be_bytes : forall n v, bytes (be n v).
Proof.
  intros n v. unfold be, bytes, to_be4.
  assert (A : Forall is_byte [byte v 3; byte v 2; byte v 1; byte v 0]) by (repeat constructor; apply byte_range).
  rewrite <- (firstn_skipn (4 - n)) in A. apply Forall_app in A. apply A.
Qed.

Lemma be_value_be : forall n v, (1 <= n <= 4)%nat -> 0 <= v < 256 ^ Z.of_nat n -> from_be (be n v) = v.
Proof.
  intros n v Hn Hv. rewrite from_be_value by apply be_bytes.
  assert (E : be n v = map (fun i => (v / 256 ^ Z.of_nat i) mod 256) (rev (seq 0 n))).
  { assert (C : n = 1%nat \/ n = 2%nat \/ n = 3%nat \/ n = 4%nat) by lia.
    destruct C as [-> | [-> | [-> | ->]]]; unfold be, to_be4; cbn [skipn Nat.sub seq rev app map];
      rewrite ?byte_eq by lia; reflexivity. }
  rewrite E, be_value_digits by lia. apply Z.mod_small. lia.
Qed.

Lemma rd_be : forall n v r, (1 <= n <= 4)%nat -> 0 <= v < 256 ^ Z.of_nat n -> rd n (be n v ++ r) = Some (v, r).
Proof.
  intros n v r Hn Hv. unfold rd. rewrite app_length, be_len by lia. destruct (Nat.ltb_spec (n + List.length r) n); [lia |].
  rewrite firstn_app, skipn_app, be_len, Nat.sub_diag by lia. rewrite (firstn_all2 (be n v)), (skipn_all2 (be n v)) by (rewrite be_len; lia).
  cbn [firstn skipn app]. rewrite app_nil_r, be_value_be by assumption. reflexivity.
Qed.

Lemma rd1 : forall v r, 0 <= v < 256 -> rd 1 (be 1 v ++ r) = Some (v, r).
Proof. intros. apply rd_be; [lia | exact H]. Qed.
Lemma rd2 : forall v r, 0 <= v < 65536 -> rd 2 (be 2 v ++ r) = Some (v, r).
Proof. intros. apply rd_be; [lia | exact H]. Qed.
Lemma rd4 : forall v r, 0 <= v < 2 ^ 32 -> rd 4 (be 4 v ++ r) = Some (v, r).
Proof. intros. apply rd_be; [lia | exact H]. Qed.

Lemma be_value_bound : forall l, Forall is_byte l -> 0 <= be_value l < 256 ^ Z.of_nat (List.length l).
Proof.
  intros l. unfold be_value.
  assert (G : forall l a k, Forall is_byte l -> 0 <= a < 256 ^ k -> 0 <= k ->
    0 <= fold_left (fun a b => a * 256 + b) l a < 256 ^ (k + Z.of_nat (List.length l))).
  { clear. induction l as [| b l IH]; intros a k H Ha Hk; cbn [fold_left List.length]; [rewrite Z.add_0_r; exact Ha |].
    inversion H as [| ? ? Hb Hl]; subst. unfold is_byte in Hb.
    replace (k + Z.of_nat (S (List.length l))) with ((k + 1) + Z.of_nat (List.length l)) by lia. apply IH; [exact Hl | | lia].
    rewrite Z.pow_add_r by lia. change (256 ^ 1) with 256. lia. }
  intros H. specialize (G l 0 0 H ltac:(lia) ltac:(lia)). exact G.
Qed.

Lemma rd_inv : forall n d v r, bytes d -> rd n d = Some (v, r) ->
  0 <= v < 256 ^ Z.of_nat n /\ bytes r /\ List.length d = (n + List.length r)%nat.
Proof.
  intros n d v r B H. unfold rd in H. destruct (Nat.ltb_spec (List.length d) n); [discriminate |].
  assert (E1 : v = from_be (firstn n d)) by congruence. assert (E2 : r = skipn n d) by congruence. clear H. subst v r.
  assert (B2 := B). unfold bytes in *. rewrite <- (firstn_skipn n d) in B2. apply Forall_app in B2. destruct B2 as [B1 B2].
  split; [| split].
  - rewrite from_be_value by exact B1. pose proof (be_value_bound _ B1) as Q. rewrite firstn_length in Q.
    replace (Nat.min n (List.length d)) with n in Q by lia. exact Q.
  - exact B2.
  - rewrite skipn_length. lia.
Qed.

Lemma rd_len : forall n d v r, rd n d = Some (v, r) -> List.length d = (n + List.length r)%nat.
Proof.
  intros n d v r H. unfold rd in H. destruct (Nat.ltb_spec (List.length d) n); [discriminate |].
  assert (E2 : r = skipn n d) by congruence. subst r. rewrite skipn_length. lia.
Qed.

(** A marker segment, and running the handlers over a list of segments. *)
Definition seg (s : Z * list Z) : list Z := be 2 (fst s) ++ be 2 (Z.of_nat (List.length (snd s)) + 2) ++ snd s.
Definition seg_ok (s : Z * list Z) : Prop := Z.of_nat (List.length (snd s)) + 2 < 65536.

Section Run.
Variable other : Z -> hdr -> list Z -> option hdr.
Variable ihdr : Z * Z.
Variable reduce : Z.

Definition here (h : hdr) (m : Z) : bool := known m && negb (m =? SOT) && allowed h m.

Fixpoint run (h : hdr) (l : list (Z * list Z)) : option hdr :=
  match l with
  | [] => Some h
  | (m, b) :: l =>
      if here h m then match handler other ihdr reduce m h b with None => None | Some h => run h l end else None
  end.

Lemma run_app : forall l h k, run h (l ++ k) = match run h l with None => None | Some h => run h k end.
Proof.
  induction l as [| [m b] l IH]; intros h k; [reflexivity |]. cbn [app run].
  destruct (here h m); [| reflexivity]. destruct (handler other ihdr reduce m h b); [apply IH | reflexivity].
Qed.

Lemma known_bound : forall m, known m = true -> 65280 <= m < 65536.
Proof.
  intros m H. apply existsb_exists in H. destruct H as (k & Hk & E). apply Z.eqb_eq in E. subst k.
  repeat (destruct Hk as [<- | Hk]; [split; [intros A; discriminate | reflexivity] |]). destruct Hk.
Qed.

Lemma read_run : forall l h h' fuel rest, Forall seg_ok l -> run h l = Some h' -> (List.length l < fuel)%nat ->
  exists m d, rd 2 (flat_map seg l ++ be 2 SOT ++ rest) = Some (m, d) /\
    read_segments other ihdr reduce fuel m h d = Some (h', rest).
Proof.
  induction l as [| [m b] l IH]; intros h h' fuel rest F R Hf.
  - cbn [run] in R. assert (h' = h) by congruence. subst h'. cbn [flat_map app].
    exists SOT, rest. split; [apply rd_be; [lia | split; [intros A; discriminate | reflexivity]] |].
    destruct fuel; [cbn [List.length] in Hf; lia |]. cbn [read_segments]. rewrite Z.eqb_refl. reflexivity.
  - cbn [run] in R. destruct (here h m) eqn:Eh; [| discriminate]. destruct (handler other ihdr reduce m h b) as [h1 |] eqn:Ehd; [| discriminate].
    inversion F as [| ? ? Fs Fl]; subst. unfold seg_ok in Fs. cbn [snd] in Fs.
    unfold here in Eh. apply andb_prop in Eh. destruct Eh as [Eh Ea]. apply andb_prop in Eh. destruct Eh as [Ek Es].
    pose proof (known_bound m Ek) as Hm.
    exists m, (be 2 (Z.of_nat (List.length b) + 2) ++ b ++ flat_map seg l ++ be 2 SOT ++ rest). split.
    + cbn [flat_map seg fst snd]. unfold seg. cbn [fst snd]. rewrite <- !app_assoc. apply rd_be; [lia | cbn; lia].
    + destruct fuel; [cbn [List.length] in Hf; lia |]. cbn [read_segments].
      destruct (Z.eqb_spec m SOT) as [E | N]; [subst m; discriminate |].
      destruct (Z.ltb_spec m 65280); [lia |]. rewrite Ek. destruct (Z.eqb_spec m SOT); [contradiction |]. rewrite Ea. cbn [negb].
      rewrite rd_be by (cbn; lia). destruct (Z.ltb_spec (Z.of_nat (List.length b) + 2) 2); [lia |]. cbv zeta.
      replace (Z.to_nat (Z.of_nat (List.length b) + 2 - 2)) with (List.length b) by lia.
      rewrite app_length. destruct (Nat.ltb_spec (List.length b + List.length (flat_map seg l ++ be 2 SOT ++ rest)) (List.length b)); [lia |].
      rewrite firstn_app, Nat.sub_diag, firstn_all, firstn_O, app_nil_r, Ehd.
      rewrite skipn_app, Nat.sub_diag, skipn_all. cbn [app skipn].
      destruct (IH h1 h' fuel rest Fl R) as (m1 & d1 & E1 & E2); [cbn [List.length] in Hf; lia |].
      rewrite E1. exact E2.
Qed.

End Run.
