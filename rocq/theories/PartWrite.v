(** Proofs about tile-parts: what the encoder writes conforms (C60). *)

From Coq Require Import ZArith List Bool Lia.
From Verif Require Import Ints CioModel HdrModel HdrBytes PartModel PartSpec PartProofs.
Import ListNotations.
Local Open Scope Z_scope.

(** A tile to be written: the tile-parts, each with marker segments and data. *)
Definition written := list (list (Z * list Z) * list Z).
Definition raw (t : written) : list (list Z * list Z) := map (fun x => (flat_map seg_bytes (fst x), snd x)) t.
Definition tile_ok (t : written) : Prop :=
  t <> [] /\ len t <= 255 /\ flat_map snd t <> [] /\ len (flat_map snd t) <= 2 ^ 32 - 3 /\
  Forall (fun x => Forall (fun sg => in_header (fst sg) /\ len (snd sg) <= 65533) (fst x) /\
                   14 + len (flat_map seg_bytes (fst x)) + len (snd x) < 2 ^ 32) t.

Fixpoint parts_from (tile parts k : Z) (t : written) : list part :=
  match t with [] => [] | (segs, data) :: t => mkPart tile k parts segs data :: parts_from tile parts (k + 1) t end.
Fixpoint all_parts (tile : Z) (ts : list written) : list part :=
  match ts with [] => [] | t :: ts => parts_from tile (len t) 0 t ++ all_parts (tile + 1) ts end.

Definition small (x : list (Z * list Z) * list Z) : Prop := 14 + len (flat_map seg_bytes (fst x)) + len (snd x) < 2 ^ 32.

Lemma tile_bytes : forall t tile parts k, Forall small t ->
  write_tile_from tile parts k (raw t) = flat_map part_bytes (parts_from tile parts k t).
Proof.
  induction t as [| [segs data] t IH]; intros tile parts k H; [reflexivity |]. inversion H as [| ? ? B F]; subst.
  cbn [raw map write_tile_from parts_from flat_map fst snd]. fold (raw t). rewrite IH by exact F. f_equal.
  unfold write_part, write_sot, part_bytes, heads_bytes. cbn [q_tile q_no q_of q_segs q_data]. unfold small, len in *. cbn [fst snd] in B.
  rewrite u32_small by lia. replace (Z.of_nat (14 + length (flat_map seg_bytes segs) + length data)) with (14 + Z.of_nat (length (flat_map seg_bytes segs)) + Z.of_nat (length data)) by lia.
  rewrite <- !app_assoc. reflexivity.
Qed.

Lemma tiles_bytes : forall ts tile, Forall (Forall small) ts ->
  write_tiles tile (map raw ts) = body (all_parts tile ts).
Proof.
  intros ts. unfold body. induction ts as [| t ts IH]; intros tile H; [reflexivity |]. inversion H as [| ? ? B F]; subst.
  cbn [map write_tiles all_parts]. rewrite IH by exact F. unfold write_tile. rewrite flat_map_app, <- app_assoc. f_equal.
  replace (Z.of_nat (length (raw t))) with (len t) by (unfold raw, len; rewrite map_length; reflexivity). apply tile_bytes. exact B.
Qed.

(** ** The tile-parts of a tile *)

Lemma from_tile : forall t tile parts k, Forall (fun p => q_tile p = tile) (parts_from tile parts k t).
Proof. induction t as [| [segs data] t IH]; intros; [constructor |]. cbn [parts_from]. constructor; [reflexivity | apply IH]. Qed.
Lemma all_tile : forall ts tile, Forall (fun p => tile <= q_tile p < tile + len ts) (all_parts tile ts).
Proof.
  induction ts as [| t ts IH]; intros tile; [constructor |]. cbn [all_parts]. assert (L : len (t :: ts) = len ts + 1) by (unfold len; cbn [length]; lia).
  pose proof (len_nonneg ts). apply Forall_app. split; (eapply Forall_impl; [| first [apply from_tile | apply IH]]); cbn beta; intros p Hp; lia.
Qed.
Lemma mine_all : forall ps i, Forall (fun p => q_tile p = i) ps -> mine i ps = ps.
Proof.
  induction ps as [| p ps IH]; intros i H; [reflexivity |]. inversion H; subst. unfold mine in *. cbn [filter]. rewrite Z.eqb_refl. f_equal. apply IH. assumption.
Qed.
Lemma mine_none : forall ps i, Forall (fun p => q_tile p <> i) ps -> mine i ps = [].
Proof. intros. apply mine_nil. assumption. Qed.

Lemma mine_tiles : forall ts tile i, tile <= i ->
  mine i (all_parts tile ts) = match nth_error ts (Z.to_nat (i - tile)) with None => [] | Some t => parts_from i (len t) 0 t end.
Proof.
  induction ts as [| t ts IH]; intros tile i Hi; [destruct (Z.to_nat (i - tile)); reflexivity |]. cbn [all_parts]. rewrite mine_app.
  destruct (Z.eq_dec i tile) as [-> | N].
  - rewrite Z.sub_diag. cbn [Z.to_nat nth_error]. rewrite mine_all by apply from_tile. rewrite mine_none; [apply app_nil_r |].
    eapply Forall_impl; [| apply all_tile]. cbn beta. intros p Hp. lia.
  - rewrite (mine_none (parts_from _ _ _ _)) by (eapply Forall_impl; [| apply from_tile]; cbn beta; intros p Hp; lia).
    cbn [app]. rewrite IH by lia. replace (Z.to_nat (i - tile)) with (S (Z.to_nat (i - (tile + 1)))) by lia. reflexivity.
Qed.

Lemma from_len : forall t tile parts k, len (parts_from tile parts k t) = len t.
Proof. unfold len. induction t as [| [segs data] t IH]; intros; [reflexivity |]. cbn [parts_from length]. specialize (IH tile parts (k + 1)). lia. Qed.
Lemma from_data : forall t tile parts k, flat_map q_data (parts_from tile parts k t) = flat_map snd t.
Proof. induction t as [| [segs data] t IH]; intros; [reflexivity |]. cbn [parts_from flat_map q_data snd]. rewrite IH. reflexivity. Qed.
Lemma from_segs : forall t tile parts k, flat_map q_segs (parts_from tile parts k t) = flat_map fst t.
Proof. induction t as [| [segs data] t IH]; intros; [reflexivity |]. cbn [parts_from flat_map q_segs fst]. rewrite IH. reflexivity. Qed.
Lemma from_told : forall t tile parts k, parts <> 0 -> t <> [] -> existsb (fun p => negb (q_of p =? 0)) (parts_from tile parts k t) = true.
Proof. intros [| [segs data] t] tile parts k H N; [contradiction |]. cbn [parts_from existsb q_of]. rewrite (proj2 (Z.eqb_neq _ _) H). reflexivity. Qed.

(** ** Numbers *)

Fixpoint numbered (pre ps : list part) : Prop :=
  match ps with [] => True | p :: ps => q_no p = len (mine (q_tile p) pre) /\ numbered (pre ++ [p]) ps end.
Lemma numbered_app : forall a b pre, numbered pre a -> numbered (pre ++ a) b -> numbered pre (a ++ b).
Proof.
  induction a as [| p a IH]; intros b pre Ha Hb; [rewrite app_nil_r in Hb; exact Hb |]. cbn [app numbered] in *. destruct Ha as [H1 H2]. split; [exact H1 |].
  apply IH; [exact H2 |]. rewrite <- app_assoc. exact Hb.
Qed.
Lemma numbered_split : forall ps pre a p b, numbered pre ps -> ps = a ++ p :: b -> q_no p = len (mine (q_tile p) (pre ++ a)).
Proof.
  induction ps as [| q ps IH]; intros pre a p b H E; [destruct a; discriminate |]. cbn [numbered] in H. destruct H as [H1 H2].
  destruct a as [| x a]; cbn [app] in E; injection E as -> E; [rewrite app_nil_r; exact H1 |].
  rewrite (IH _ a p b H2 E). rewrite <- app_assoc. reflexivity.
Qed.
Lemma from_numbered : forall t tile parts k pre, len (mine tile pre) = k -> numbered pre (parts_from tile parts k t).
Proof.
  induction t as [| [segs data] t IH]; intros tile parts k pre H; [exact I |]. cbn [parts_from numbered q_no q_tile]. split; [auto |]. apply IH.
  rewrite mine_app, len_app, H. change (mine tile [mkPart tile k parts segs data]) with (mine (q_tile (mkPart tile k parts segs data)) [mkPart tile k parts segs data]).
  rewrite mine_one. reflexivity.
Qed.
Lemma all_numbered : forall ts tile pre, Forall (fun p => q_tile p < tile) pre -> numbered pre (all_parts tile ts).
Proof.
  induction ts as [| t ts IH]; intros tile pre H; [exact I |]. cbn [all_parts]. apply numbered_app.
  - apply from_numbered. rewrite mine_none; [reflexivity |]. eapply Forall_impl; [| exact H]. cbn beta. intros p Hp. lia.
  - apply IH. apply Forall_app. split; (eapply Forall_impl; [| first [exact H | apply from_tile]]); cbn beta; intros p Hp; lia.
Qed.

(** ** Conformance and order *)

Lemma ok_small : forall ts, Forall tile_ok ts -> Forall (Forall small) ts.
Proof.
  intros ts H. eapply Forall_impl; [| exact H]. intros t (_ & _ & _ & _ & K). eapply Forall_impl; [| exact K]. intros x [_ X]. exact X.
Qed.

Lemma from_in : forall t tile parts k p, In p (parts_from tile parts k t) -> q_tile p = tile /\ q_of p = parts /\ In (q_segs p, q_data p) t.
Proof.
  induction t as [| [segs data] t IH]; intros tile parts k p H; [destruct H |]. cbn [parts_from] in H. destruct H as [<- | H].
  - cbn. auto.
  - destruct (IH _ _ _ _ H) as (A & B & D). repeat split; try assumption. right. exact D.
Qed.

Lemma tile_of : forall ts p, In p (all_parts 0 ts) -> exists t, nth_error ts (Z.to_nat (q_tile p)) = Some t /\ In t ts /\ q_of p = len t /\ In (q_segs p, q_data p) t.
Proof.
  intros ts p H. pose proof (proj1 (Forall_forall _ _) (all_tile ts 0) p H) as B. cbn beta in B.
  assert (M : In p (mine (q_tile p) (all_parts 0 ts))) by (apply filter_In; split; [exact H | apply Z.eqb_refl]).
  rewrite mine_tiles in M by lia. rewrite Z.sub_0_r in M. destruct (nth_error ts (Z.to_nat (q_tile p))) as [t |] eqn:E; [| destruct M].
  destruct (from_in _ _ _ _ _ M) as (_ & Q & D). exists t. repeat split; try assumption. apply nth_error_In in E. exact E.
Qed.

Lemma ok_sequence : forall ts, Forall tile_ok ts -> len ts <= 65535 -> sequence_ok (len ts) (all_parts 0 ts).
Proof.
  intros ts H L. rewrite Forall_forall in H. pose proof (len_nonneg ts). split; [lia |].
  assert (MT : forall i, 0 <= i -> mine i (all_parts 0 ts) = match nth_error ts (Z.to_nat i) with None => [] | Some t => parts_from i (len t) 0 t end).
  { intros i Hi. rewrite mine_tiles by lia. rewrite Z.sub_0_r. reflexivity. }
  assert (NG : forall i, i < 0 -> mine i (all_parts 0 ts) = []).
  { intros i Hi. apply mine_none. eapply Forall_impl; [| apply all_tile]. cbn beta. intros p Hp. lia. }
  split; [| split; [| split]].
  - apply Forall_forall. intros p Hp. pose proof (proj1 (Forall_forall _ _) (all_tile ts 0) p Hp) as B. cbn beta in B.
    destruct (tile_of ts p Hp) as (t & E & I & Q & D). destruct (H t I) as (T1 & T2 & T3 & T4 & T5). rewrite Forall_forall in T5. destruct (T5 _ D) as [U V]. cbn [fst snd] in U, V.
    split; [lia |]. split; [right; rewrite MT, E, from_len by lia; exact Q |]. split; [exact U | exact V].
  - intros a p b E. rewrite (numbered_split _ [] a p b (all_numbered ts 0 [] (Forall_nil _)) E). reflexivity.
  - intros i. destruct (Z.ltb_spec i 0); [rewrite NG by assumption; cbn; lia |]. rewrite MT by assumption.
    destruct (nth_error ts (Z.to_nat i)) as [t |] eqn:E; [| cbn; lia]. rewrite from_len. apply nth_error_In in E. destruct (H t E) as (_ & T & _). exact T.
  - intros i. unfold data_of. destruct (Z.ltb_spec i 0); [rewrite NG by assumption; cbn; lia |]. rewrite MT by assumption.
    destruct (nth_error ts (Z.to_nat i)) as [t |] eqn:E; [| cbn; lia]. rewrite from_data. apply nth_error_In in E. destruct (H t E) as (_ & _ & _ & T & _). exact T.
Qed.

Lemma lasts_app : forall a b, (forall p q, In p a -> In q b -> q_tile p <> q_tile q) -> lasts (a ++ b) = lasts a ++ lasts b.
Proof.
  induction a as [| p a IH]; intros b H; [reflexivity |]. cbn [app lasts]. rewrite existsb_app, IH by (intros x y X Y; apply H; [right; exact X | exact Y]).
  replace (existsb (fun q => q_tile q =? q_tile p) b) with false; [rewrite orb_false_r; destruct (existsb _ a); reflexivity |].
  symmetry. apply not_true_is_false. intros X. apply existsb_exists in X. destruct X as (q & Q1 & Q2). apply Z.eqb_eq in Q2.
  apply (H p q); [left; reflexivity | exact Q1 | auto].
Qed.
Lemma lasts_from : forall t tile parts k, t <> [] -> lasts (parts_from tile parts k t) = [tile].
Proof.
  induction t as [| [segs data] t IH]; intros tile parts k N; [contradiction |]. cbn [parts_from lasts q_tile].
  destruct t as [| [segs' data'] t]; [reflexivity |]. rewrite IH by discriminate. cbn [parts_from existsb q_tile]. rewrite Z.eqb_refl. reflexivity.
Qed.
Lemma lasts_all : forall ts tile, Forall (fun t => t <> []) ts -> lasts (all_parts tile ts) = upto (length ts) tile.
Proof.
  induction ts as [| t ts IH]; intros tile H; [reflexivity |]. inversion H as [| ? ? N F]; subst. cbn [all_parts length upto].
  rewrite lasts_app, lasts_from, IH by (try exact N; try exact F; intros p q P Q; apply from_in in P; destruct P as (P & _);
    pose proof (proj1 (Forall_forall _ _) (all_tile ts (tile + 1)) q Q) as B; cbn beta in B; lia). reflexivity.
Qed.

Lemma filter_all : forall {A} (f g : A -> bool) l, (forall x, In x l -> g x = true) -> filter (fun x => f x && g x) l = filter f l.
Proof. intros A f g l H. apply filter_ext_on. intros x Hx. rewrite (H x Hx). apply andb_true_r. Qed.

Lemma order_all : forall ts wanted, Forall tile_ok ts -> order (len ts) wanted (all_parts 0 ts) = filter wanted (tiles (len ts)).
Proof.
  intros ts wanted H. unfold order.
  assert (TT : forall i, 0 <= i < len ts -> told i (all_parts 0 ts) = true).
  { intros i Hi. unfold told. rewrite mine_tiles by lia. rewrite Z.sub_0_r. destruct (nth_error ts (Z.to_nat i)) as [t |] eqn:E.
    - rewrite Forall_forall in H. apply nth_error_In in E. destruct (H t E) as (N & _). apply from_told; [rewrite len0; exact N | exact N].
    - apply nth_error_None in E. unfold len in Hi. lia. }
  rewrite lasts_all by (eapply Forall_impl; [| exact H]; intros t (N & _); exact N).
  assert (ET : upto (length ts) 0 = tiles (len ts)).
  { unfold tiles, len. rewrite Nat2Z.id. apply (upto_tiles (length ts) 0). }
  match goal with |- filter _ ?u ++ _ = _ => replace u with (tiles (len ts)) by (symmetry; exact ET) end. rewrite filter_all by (intros i Hi; apply TT, tiles_in; exact Hi).
  match goal with |- _ ++ ?u = _ => replace u with (@nil Z); [apply app_nil_r |] end.
  symmetry. rewrite (filter_ext_on _ (fun _ => false)).
  - clear. induction (tiles (len ts)) as [| x l IH]; [reflexivity | exact IH].
  - intros i Hi. rewrite TT by (apply tiles_in; exact Hi). rewrite andb_false_r. reflexivity.
Qed.

Lemma written_read : forall {C R} (handle : Z -> Z -> C -> list Z -> option C) (use : Z -> C -> list Z -> option R) wanted strict seekable fails par ts res,
  Forall tile_ok ts -> ts <> [] -> len ts <= 65535 ->
  (forall i t, 0 <= i -> nth_error ts (Z.to_nat i) = Some t -> wanted i = true ->
    exists c, after handle i (par i) (flat_map fst t) = Some c /\ use i c (flat_map snd t) = Some (res i)) ->
  decode_tiles handle use (len ts) wanted strict seekable fails par (skipn 2 (write_tiles 0 (map raw ts))) =
  Done (map (fun i => (i, res i)) (filter wanted (tiles (len ts)))).
Proof.
  intros C R handle use wanted strict seekable fails par ts res H N L HU.
  rewrite tiles_bytes by (apply ok_small; exact H). rewrite <- order_all by exact H.
  assert (HS := ok_sequence ts H L).
  assert (HO : forall i, In i (order (len ts) wanted (all_parts 0 ts)) -> exists t, 0 <= i /\ wanted i = true /\ nth_error ts (Z.to_nat i) = Some t /\ mine i (all_parts 0 ts) = parts_from i (len t) 0 t).
  { intros i Hi. rewrite order_all in Hi by exact H. apply filter_In in Hi. destruct Hi as [Hi W]. apply tiles_in in Hi.
    destruct (nth_error ts (Z.to_nat i)) as [t |] eqn:E; [| apply nth_error_None in E; unfold len in Hi; lia]. exists t. split; [lia |]. split; [exact W |]. split; [reflexivity |].
    rewrite mine_tiles by lia. rewrite Z.sub_0_r, E. reflexivity. }
  apply run; [exact HS | | |].
  - intros i Hi. destruct (HO i Hi) as (t & I0 & W & E & M). unfold data_of. rewrite M, from_data. rewrite Forall_forall in H. apply nth_error_In in E. destruct (H t E) as (_ & _ & X & _). exact X.
  - intros i Hi. destruct (HO i Hi) as (t & I0 & W & E & M). unfold data_of, par_of. rewrite M, from_data, from_segs. apply (HU i t I0 E W).
  - destruct ts as [| t ts]; [contradiction |]. inversion H as [| ? ? (T1 & _) _]; subst. destruct t as [| [segs data] t]; [contradiction |]. discriminate.
Qed.
