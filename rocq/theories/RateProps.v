(** C80: the division of passes into quality layers. *)

From Coq Require Import ZArith List Bool Lia.
From Verif Require Import Ints I32 MathModel Mem GeomModel GeomProofs GeomCover GeomProps TgtModel TgtProofs TgtProps T2CodesModel Ints T2PacketModel T2PacketProps T1Model T1Props CblkModel PiModel PiSpec PacketsModel PacketsProps TileModel TileGeom
  TileProofs RateModel RateProofs.
Import ListNotations.
Local Open Scope Z_scope.

(** ** Statements *)

(** A block before: as many passes as it says, rates of 32 bits, room for 100 layers. *)
Definition block_in {P} (b : blk P) : Prop :=
  (b_total b <= length (b_passes b))%nat /\ Forall (fun p => 0 <= fst p < 2 ^ 32) (b_passes b) /\ length (b_layers b) = 100%nat.
Definition pass_rates {P} (b : blk P) : list Z := map fst (firstn (b_total b) (b_passes b)).
(** A layer with its bytes of the block's data. *)
Definition with_bytes {P} (data : list Z) (y : lay P) : layer :=
  mkLayer (y_passes y) (if (y_passes y =? 0)%nat then [] else firstn (Z.to_nat (y_len y)) (skipn (Z.to_nat (y_off y)) data)).
(** The layers of block [b] are its passes up to [cuts]. *)
Definition cut_at {P} (b : blk P) (nlay : nat) (cuts : list nat) (b' : blk P) : Prop :=
  b_total b' = b_total b /\ b_passes b' = b_passes b /\ length cuts = nlay /\ ascending 0 cuts (b_total b) /\
  forall data, map (with_bytes data) (firstn nlay (b_layers b')) = make_layers (pass_rates b) data 0 cuts.

(** ** Proofs *)
Lemma make_layers_nth : forall rs data cuts a i, (i < length cuts)%nat ->
  nth_error (make_layers rs data a cuts) i = Some (make_layer rs data (nth i (a :: cuts) 0%nat) (nth i cuts 0%nat)).
Proof.
  intros rs data. induction cuts as [| c cuts IH]; intros a i H; [cbn in H; lia |]. destruct i as [| i]; [reflexivity |]. cbn [make_layers nth_error length] in *. rewrite IH by lia. reflexivity.
Qed.
Lemma make_layers_len : forall rs data cuts a, length (make_layers rs data a cuts) = length cuts.
Proof. intros rs data. induction cuts as [| c cuts IH]; intros a; [reflexivity |]. cbn [make_layers length]. rewrite IH. reflexivity. Qed.
Lemma nth_ext_some : forall A (l m : list A), length l = length m -> (forall i x, (i < length l)%nat -> nth_error m i = Some x -> nth_error l i = Some x) -> l = m.
Proof.
  induction l as [| a l IH]; intros [| b m] L H; try discriminate L; [reflexivity |]. f_equal.
  - specialize (H 0%nat b ltac:(cbn; lia) eq_refl). cbn in H. congruence.
  - apply IH; [cbn in L; lia |]. intros i x Hi E. apply (H (S i) x); [cbn; lia | exact E].
Qed.
Lemma rate_first : forall {P} (b : blk P) n, (n <= b_total b)%nat -> rate_upto (pass_rates b) n = rate_upto (rates P b) n.
Proof.
  intros P b [| n] H; [reflexivity |]. cbn [rate_upto]. unfold pass_rates, rates.
  destruct (Nat.lt_ge_cases n (length (b_passes b))) as [Q | Q].
  - destruct (nth_error (b_passes b) n) as [p |] eqn:E; [| apply nth_error_None in E; lia].
    rewrite (nth_error_nth (map fst (b_passes b)) n 0 (x := fst p)) by (rewrite nth_error_map, E; reflexivity).
    apply nth_error_nth. rewrite nth_error_map, first_nth, E by lia. reflexivity.
  - rewrite !nth_overflow; [reflexivity | rewrite map_length; lia | rewrite map_length, firstn_length; lia].
Qed.
Lemma made_cut : forall {P} (b b' : blk P) n cuts, (n <= 100)%nat -> kept P b b' -> sound P b' -> length (b_layers b') = 100%nat -> length cuts = n -> ascending 0 cuts (b_total b') ->
  layers_ok P b' cuts n -> cut_at b n cuts b'.
Proof.
  intros P b b' n cuts Hn [K1 K2] [S1 S2] Lr Lc A Y. rewrite K1 in A. split; [exact K1 |]. split; [exact K2 |]. split; [exact Lc |]. split; [exact A |].
  intros data. apply nth_ext_some; [rewrite make_layers_len, map_length, firstn_length; lia |]. intros i x Hi E. rewrite map_length, firstn_length in Hi.
  rewrite make_layers_nth in E by lia. assert (Ex : x = make_layer (pass_rates b) data (nth i (0%nat :: cuts) 0%nat) (nth i cuts 0%nat)) by congruence. clear E. subst x. rewrite nth_error_map, first_nth by lia. destruct (Y i ltac:(lia)) as (y & N & M1 & M2). rewrite N. cbn [option_map]. f_equal.
  pose proof (cut_steps cuts 0 (b_total b) i A ltac:(lia)) as St.
  change (cut cuts (S i)) with (nth i cuts 0%nat) in *. change (cut cuts i) with (nth i (0%nat :: cuts) 0%nat) in *.
  generalize dependent (nth i cuts 0%nat). generalize (nth i (0%nat :: cuts) 0%nat). intros a m M1 M2 St.
  unfold with_bytes, make_layer. rewrite M1. f_equal. destruct (Nat.eqb_spec (m - a)%nat 0) as [Q | Q]; [reflexivity |].
  destruct (M2 ltac:(lia)) as [-> ->]. rewrite !rate_first by lia. unfold rates. rewrite K2. reflexivity.
Qed.
Lemma done_cut : forall {P} (b b' : blk P) n, (n <= 100)%nat -> kept P b b' -> done P 100 n b' -> exists cuts, cut_at b n cuts b' /\ cur P n b' = cut cuts n.
Proof. intros P b b' n Hn K (S & Lr & cuts & Lc & A & C & Y). exists cuts. split; [exact (made_cut b b' n cuts Hn K S Lr Lc A Y) | exact C]. Qed.

Definition key_eq_dec : forall p q : TileModel.key, {p = q} + {p <> q}.
Proof. repeat decide equality. Defined.
Lemma list_eq_dec_nil : forall A (l : list A), l = [] \/ exists l0 x, l = l0 ++ [x].
Proof. intros A l. destruct (rev l) as [| x r] eqn:E; [left | right]; apply (f_equal (@rev A)) in E; rewrite rev_involutive in E; [exact E |]. exists (rev r), x. exact E. Qed.
Lemma Forall2_impl2 : forall A B (R Q : A -> B -> Prop) l m, (forall a b, R a b -> Q a b) -> Forall2 R l m -> Forall2 Q l m.
Proof. intros A B R Q l m I H. induction H; constructor; auto. Qed.
Lemma forall2_and : forall A B (R : A -> B -> Prop) (Q : B -> Prop) l m, Forall2 R l m -> Forall Q m -> Forall2 (fun a b => R a b /\ Q b) l m.
Proof. intros A B R Q l m H. induction H; intros G; inversion G; subst; constructor; auto. Qed.

(** Whatever the distortions, the strategy, the goals of the layers and the answers of
    trial runs: nothing is read outside an array, and the layers of each block are its
    passes, cut at rising numbers.  If the last layer has no goal, it takes all that is
    left. *)
Theorem c80_layers : forall P st gs bs, (length gs <= 100)%nat -> Forall block_in bs ->
  exists bs', rateallocate P st gs bs = Some bs' /\
    Forall2 (fun b b' => exists cuts, cut_at b (length gs) cuts b' /\
      (forall gs0 g, gs = gs0 ++ [g] -> g_search g = false -> f_lt P (f_minus_one P) (f_zero P) = true -> cut cuts (length gs) = b_total b)) bs bs'.
Proof.
  intros P st gs bs Hl H. destruct (allocated P 100 st gs bs Hl) as (bs' & E & D & K & N).
  - eapply Forall_impl; [| exact H]. intros b (H1 & H2 & _). split; assumption.
  - eapply Forall_impl; [| exact H]. intros b (_ & _ & H3). exact H3.
  - exists bs'. split; [exact E |]. destruct (list_eq_dec_nil _ gs) as [-> | (gs0 & g & Eg)].
    + eapply Forall2_impl2; [| apply (forall2_and _ _ _ _ _ _ K D)]. intros b b' [K1 D1]. destruct (done_cut b b' 0 ltac:(lia) K1 D1) as (cuts & Q & _). exists cuts. split; [exact Q |].
      intros gs0 g Eg. destruct gs0; discriminate Eg.
    + assert (X : Forall (fun b => g_search g = false -> f_lt P (f_minus_one P) (f_zero P) = true -> b_in b = b_total b) bs').
      { destruct (g_search g) eqn:G; [apply Forall_forall; discriminate |]. destruct (f_lt P (f_minus_one P) (f_zero P)) eqn:G2; [| apply Forall_forall; discriminate].
        eapply Forall_impl; [| exact (N gs0 g Eg G eq_refl)]. auto. }
      eapply Forall2_impl2; [| apply (forall2_and _ _ _ _ _ _ (forall2_and _ _ _ _ _ _ K D) X)]. intros b b' [[K1 D1] X1].
      destruct (done_cut b b' (length gs) Hl K1 D1) as (cuts & Q & C). exists cuts. split; [exact Q |]. intros gs1 g1 Eg1 G1 Neg. rewrite Eg in Eg1. apply app_inj_tail in Eg1. destruct Eg1 as [-> ->].
      destruct K1 as [K1 _]. rewrite <- K1, <- (X1 G1 Neg), <- C, Eg, app_length. cbn [length]. rewrite Nat.add_1_r. reflexivity.
Qed.

(** The contract that the theorems about tiles and images (C58, C59, C61, C65, C67) ask of
    rate allocation is met, if the last layer has no goal: [keys] says which block of the
    tile is where in the list. *)
Theorem c80_contract : forall P st gs g bs keys psize size T S data bufs, (length (gs ++ [g]) <= 100)%nat -> Forall block_in bs ->
  g_search g = false -> f_lt P (f_minus_one P) (f_zero P) = true -> NoDup keys ->
  (forall c r comp ls b k q j blk kd, resolution T c r -> tile_comp T c = Some comp -> res_bands psize size (par T c) (S c) comp r = Some ls -> In b ls -> 0 <= k ->
     nth_error (b_precs b) (Z.to_nat k) = Some q -> nth_error (cblks q) j = Some blk ->
     code_block (S c) comp (nres (par T c)) r b blk (data c) (bufs (c, r, b_no b, k, j)) = Some kd ->
     exists i e, nth_error keys i = Some (c, r, b_no b, k, j) /\ nth_error bs i = Some e /\ pass_rates e = k_rates kd) ->
  exists bs' cuts, rateallocate P st (gs ++ [g]) bs = Some bs' /\ all_passes psize size T S data bufs cuts (length (gs ++ [g])) /\
    forall i key e e', nth_error keys i = Some key -> nth_error bs i = Some e -> nth_error bs' i = Some e' -> cut_at e (length (gs ++ [g])) (cuts key) e'.
Proof.
  intros P st gs g bs keys psize size T S data bufs Hl Hb Hg Neg Nd H. destruct (c80_layers P st (gs ++ [g]) bs Hl Hb) as (bs' & E & F2).
  set (n := length (gs ++ [g])) in *.
  assert (F3 : Forall2 (fun b b' => exists cuts, cut_at b n cuts b' /\ cut cuts n = b_total b) bs bs').
  { eapply Forall2_impl2; [| exact F2]. intros b b' (cuts & C & L). exists cuts. split; [exact C |]. exact (L gs g eq_refl Hg Neg). }
  clear F2. assert (X : exists css, Forall2 (fun b c => length c = n /\ ascending 0 c (b_total b) /\ cut c n = b_total b) bs css /\
    forall i e e' c, nth_error bs i = Some e -> nth_error bs' i = Some e' -> nth_error css i = Some c -> cut_at e n c e').
  { clear - F3. induction F3 as [| b b' bs bs' (c & C & L) F3 (css & I1 & I2)].
    - exists []. split; [constructor |]. intros [|] e e' c N; discriminate N.
    - exists (c :: css). split; [constructor; [split; [apply C | split; [apply C | exact L]] | exact I1] |]. intros [| i] e e' c0 N1 N2 N3; cbn [nth_error] in *; [congruence | eapply I2; eassumption]. }
  destruct X as (css & X1 & X2).
  set (find := fix find (ks : list TileModel.key) (cs : list (list nat)) (q : TileModel.key) : list nat := match ks, cs with k :: ks, c :: cs => if key_eq_dec q k then c else find ks cs q | _, _ => [] end).
  assert (Fi : forall ks cs, NoDup ks -> forall i q c, nth_error ks i = Some q -> nth_error cs i = Some c -> find ks cs q = c).
  { induction ks as [| k ks IH]; intros cs N i q c N1 N2; [destruct i; discriminate N1 |]. destruct cs as [| c0 cs]; [destruct i; discriminate N2 |]. cbn [find]. inversion N; subst.
    destruct i as [| i]; cbn [nth_error] in *; [injection N1 as <-; injection N2 as <-; destruct (key_eq_dec k k); [reflexivity | contradiction] |].
    destruct (key_eq_dec q k) as [-> | Q]; [exfalso; apply H2; apply (nth_error_In _ i); exact N1 | eapply IH; eassumption]. }
  exists bs', (find keys css). split; [exact E |]. split.
  - intros c r comp ls b k q j blk kd H1 H2 H3 H4 H5 H6 H7 H8. destruct (H c r comp ls b k q j blk kd H1 H2 H3 H4 H5 H6 H7 H8) as (i & e & Ni & Ne & R).
    assert (Q : exists ci, nth_error css i = Some ci /\ length ci = n /\ ascending 0 ci (b_total e) /\ cut ci n = b_total e).
    { clear - X1 Ne. revert i Ne. induction X1 as [| b0 c0 bs0 cs0 Q X1 IH]; intros [| i] Ne; try discriminate Ne; cbn [nth_error] in *; [injection Ne as <-; exists c0; split; [reflexivity | exact Q] | apply IH; exact Ne]. }
    destruct Q as (ci & Nc & Q). rewrite (Fi keys css Nd i _ ci Ni Nc). assert (Be : length (k_rates kd) = b_total e).
    { rewrite <- R. unfold pass_rates. rewrite map_length, firstn_length. rewrite Forall_forall in Hb. destruct (Hb e (nth_error_In _ _ Ne)) as [B _]. lia. }
    rewrite Be. exact Q.
  - intros i q e e' Ni Ne Ne'. assert (Q : exists ci, nth_error css i = Some ci).
    { clear - X1 Ne. revert i Ne. induction X1 as [| b0 c0 bs0 cs0 Q X1 IH]; intros [| i] Ne; try discriminate Ne; cbn [nth_error] in *; [exists c0; reflexivity | apply IH; exact Ne]. }
    destruct Q as (ci & Nc). rewrite (Fi keys css Nd i _ ci Ni Nc). eapply X2; eassumption.
Qed.

(** ** Rates are kept

    With goals by rate: what a layer ends up with succeeded in a trial run; or no
    threshold that was tried did, and the outcome is as if nothing fitted; or the
    threshold that did counts as zero. *)
Theorem c80_fits : forall P st gs bs0 bs g lo hi cum bs' d, (length gs < 100)%nat -> Forall block_in bs0 -> rateallocate P st gs bs0 = Some bs ->
  let l := length gs in g_search g = true -> f_eq P (f_zero P) (f_zero P) = true -> one_layer P ByRate lo hi l g bs cum = Some (bs', d) ->
  g_fits g (map (view P l) bs') = true \/
  one_layer P ByRate lo hi l (Goal true (g_target g) (fun _ => false)) bs cum = Some (bs', d) \/
  exists t bs1 s1 d1, f_eq P t (f_zero P) = true /\ makelayer P l t false bs = Some (bs1, s1, d1) /\ g_fits g (map (view P l) bs1) = true.
Proof.
  intros P st gs bs0 bs g lo hi cum bs' d Hl Hb E0 l Hg Z0 E. destruct (allocated P 100 st gs bs0 ltac:(lia)) as (bs2 & E2 & D & _ & _).
  { eapply Forall_impl; [| exact Hb]. intros b (H1 & H2 & _). split; assumption. } { eapply Forall_impl; [| exact Hb]. intros b (_ & _ & H3). exact H3. }
  rewrite E0 in E2. injection E2 as <-.
  assert (R : Forall (ready P l) bs).
  { eapply Forall_impl; [| exact D]. intros b (S & Lr & cuts & Lc & A & C & _). split; [exact S |]. split; [fold l in Lc; lia |]. unfold l. rewrite C, <- Lc. apply cut_top. exact A. }
  unfold one_layer in E |- *. rewrite Hg in E. cbn [g_search].
  destruct (search P ByRate l g cum 128 0 bs lo hi (f_zero P) (f_zero P) false) as [[[b1 t] s] |] eqn:Es; [| discriminate E].
  destruct (search_or_never P l g cum 128 0 bs lo hi (f_zero P) (f_zero P) b1 t s R Es ltac:(contradiction)) as [N | (A & Fi)].
  - right. left. unfold never in N. rewrite Hg in N. rewrite N. exact E.
  - destruct (f_eq P s (f_zero P)) eqn:Q.
    + right. right. destruct (blocks_view P l s false bs true (f_zero P) R) as (b2 & s2 & d2 & E2 & V2 & _). exists s, b2, s2, d2. split; [exact Q |]. split; [exact E2 |].
      rewrite V2. rewrite <- (views_alike P l s bs b1 A). exact Fi.
    + left. unfold makelayer in E. assert (R1 : Forall (ready P l) b1).
      { clear - A R. revert R. induction A as [| x y bs bs1 (K & C & Fi & Le) A IH]; intros R; [constructor |]. inversion R as [| ? ? Rx Rb]; subst. constructor; [| apply IH; exact Rb].
        destruct Rx as ([S1 S2] & L1 & L2). destruct K as [K1 K2]. split; [split; [rewrite K1, K2; exact S1 | rewrite K2; exact S2] |]. rewrite Le, C, K1. split; assumption. }
      destruct (blocks_view P l s true b1 true (f_zero P) R1) as (b2 & s2 & d2 & E2 & V2 & _). rewrite E2 in E. injection E as <- _. rewrite V2. exact Fi.
Qed.

(** ** Which passes are taken

    From pass [p] on, pass [q] is worth its bytes: what distortion it takes away is not
    zero, if there are no bytes, or not below the threshold per byte. *)
Definition worth {P} (b : blk P) (thresh : F P) (p q : nat) : bool :=
  match nth_error (b_passes b) (q - 1), (match p with O => None | S m => nth_error (b_passes b) m end) with
  | Some (r, d), before =>
      let dr := match before with None => r | Some (r0, _) => u32 (r - r0) end in
      let dd := match before with None => d | Some (_, d0) => f_sub P d d0 end in
      if dr =? 0 then negb (f_eq P dd (f_zero P)) else f_lt P (f_sub P thresh (f_div P dd (f_of P dr))) (f_eps P)
  | None, _ => false
  end.
(** From [a], always on to the next that is worth it, up to [top]. *)
Inductive greedy (good : nat -> nat -> bool) (top : nat) : nat -> nat -> Prop :=
| greedy_stop : forall a, (forall j, (a < j <= top)%nat -> good a j = false) -> greedy good top a a
| greedy_go : forall a j n, (a < j <= top)%nat -> good a j = true -> (forall i, (a < i < j)%nat -> good a i = false) -> greedy good top j n -> greedy good top a n.

Lemma take_greedy : forall {P} (b : blk P) thresh k passno n n', (passno + k <= length (b_passes b))%nat -> (n <= passno)%nat -> take P (b_passes b) thresh k passno n = Some n' ->
  (forall j, (n < j <= passno)%nat -> worth b thresh n j = false) -> greedy (worth b thresh) (passno + k) n n'.
Proof.
  intros P b thresh. induction k as [| k IH]; intros passno n n' L Ln E N; cbn [take] in E.
  - assert (n' = n) by congruence. subst n'. rewrite Nat.add_0_r. apply greedy_stop. exact N.
  - destruct (nth_error (b_passes b) passno) as [[r d] |] eqn:Ep; [| discriminate E].
    assert (X : forall n1, n1 = (if worth b thresh n (S passno) then S passno else n) -> take P (b_passes b) thresh k (S passno) n1 = Some n' -> greedy (worth b thresh) (passno + S k) n n').
    { intros n1 Hn1 Et. rewrite <- Nat.add_succ_comm. destruct (worth b thresh n (S passno)) eqn:W.
      - subst n1. apply (greedy_go _ _ _ (S passno)); [lia | exact W | intros i Hi; apply N; lia |]. apply IH; [lia | lia | exact Et | intros j Hj; lia].
      - subst n1. apply IH; [lia | lia | exact Et |]. intros j Hj. destruct (Nat.eq_dec j (S passno)) as [-> | Q]; [exact W | apply N; lia]. }
    destruct n as [| m].
    + apply (X _ (eq_refl _)). rewrite <- E. f_equal. unfold worth. replace (S passno - 1)%nat with passno by lia. rewrite Ep. destruct (r =? 0); [destruct (f_eq P d (f_zero P)) |]; reflexivity.
    + destruct (nth_error (b_passes b) m) as [[r0 d0] |] eqn:Em; [| discriminate E]. apply (X _ (eq_refl _)). rewrite <- E. f_equal. unfold worth. replace (S passno - 1)%nat with passno by lia. rewrite Ep, Em.
      destruct (u32 (r - r0) =? 0); [destruct (f_eq P (f_sub P d d0) (f_zero P)) |]; reflexivity.
Qed.
(** A layer that is made takes the passes that the threshold says, or all, if it is below zero. *)
Theorem c80_choice : forall P l thresh (b b' : blk P) s d, block_in b -> (l < 100)%nat -> let a := match l with O => O | S _ => b_in b end in (a <= b_total b)%nat ->
  make_block P l thresh true b = Some (b', s, d) ->
  (exists y, nth_error (b_layers b') l = Some y /\ y_passes y = (b_in b' - a)%nat) /\
  (if f_lt P thresh (f_zero P) then b_in b' = b_total b else greedy (worth b thresh) (b_total b) a (b_in b')).
Proof.
  intros P l thresh b b' s d (B1 & B2 & B3) Hl a Ha E. destruct (make_block_spec P l thresh true b (conj B1 B2) ltac:(lia) Ha) as (n & y & y0 & d0 & C & L & N & (M & _) & E'). rewrite E' in E.
  assert (Eb : b' = Blk (b_total b) (b_passes b) (put l y (b_layers b)) n) by congruence. subst b'. cbn [b_layers b_in]. split.
  - exists y. split; [apply put_same; lia | exact M].
  - unfold choose in C. destruct (f_lt P thresh (f_zero P)); [congruence |]. replace (b_total b) with (a + (b_total b - a))%nat at 1 by lia. apply take_greedy; [lia | lia | exact C | intros j Hj; lia].
Qed.

(** ** Fixed allocation

    If the entries [m] of the matrix for a block rise from layer to layer and none is above
    the precision, layer [l] ends with the passes of the first [m l] bit-planes of the
    precision, of which the first [imsb] have none. *)
Theorem c80_fixed : forall P m numbps prec nlay (b : blk P), (nlay <= 100)%nat -> block_in b -> 0 <= numbps <= prec -> prec <= 38 ->
  (forall l, 0 <= m l <= prec) -> (forall l, m l <= m (S l)) -> Z.of_nat (b_total b) = (if numbps =? 0 then 0 else 3 * numbps - 2) ->
  exists b', fixed_layers P m (prec - numbps) nlay 0 b = Some b' /\
    cut_at b nlay (map (fun l => if m l <=? prec - numbps then O else Z.to_nat (3 * (m l - (prec - numbps)) - 2)) (seq 0 nlay)) b'.
Proof.
  intros P m numbps prec nlay b Hl (B1 & B2 & B3) Hn Hp Hm Hup T. set (imsb := prec - numbps) in *.
  assert (Hi : 0 <= imsb <= prec) by (unfold imsb; lia).
  destruct (fixed_all P m imsb prec Hi ltac:(lia) Hm Hup 100 nlay 0 b ltac:(lia)) as (b' & E & F & K).
  { split; [split; assumption |]. split; [exact B3 |]. split; [| split; [reflexivity | intros i Q; lia]]. rewrite T. unfold imsb. destruct (Z.eqb_spec numbps 0), (Z.eqb_spec prec (prec - numbps)); lia. }
  exists b'. split; [exact E |]. destruct F as (S & Lr & T' & C & Y). cbn [plus] in Y. apply made_cut; try assumption; [rewrite map_length, seq_length; reflexivity |].
  apply asc_map; intros i Q; [apply (fixed_top P m imsb prec); try assumption | eapply (fixed_up m imsb); eassumption].
Qed.

(** ** Examples: integers in place of floats *)
Definition ints : floats :=
  Floats Z 0 (-1) (2 ^ 40) 1 2 0 Z.add Z.sub Z.mul Z.div Z.abs Z.ltb Z.leb Z.eqb (fun z => z).
Definition ex_block (ps : list (Z * Z)) : blk ints := Blk (P := ints) (length ps) ps (repeat (Lay (P := ints) 7 7 7 7) 100) 5.
Definition ex_goal (room : Z) : goal ints :=
  Goal (P := ints) true 0 (fun vs => fold_right Z.add 0 (map (fun '(_, _, n) => n) (concat vs)) <=? room).
Definition all_left : goal ints := Goal (P := ints) false 0 (fun _ => false).
Definition taken (n : nat) (o : option (list (blk ints))) : option (list (list (nat * Z * Z))) := option_map (map (view ints (n - 1))) o.
(** Two blocks; 12 bytes in the first layer, the rest in the second. *)
Example c80_ex : taken 2 (rateallocate ints ByRate [ex_goal 12; all_left] [ex_block [(4, 400); (9, 500); (20, 510)]; ex_block [(5, 50); (5, 60)]]) =
  Some [[(2%nat, 0, 9); (1%nat, 9, 11)]; [(0%nat, 0, 0); (2%nat, 0, 5)]].
Proof. vm_compute. reflexivity. Qed.
Example c80_ex_in : block_in (ex_block [(4, 400); (9, 500); (20, 510)]).
Proof. split; [cbn; lia |]. split; [repeat constructor; cbn; lia | reflexivity]. Qed.

Lemma taken_some : forall n o vs, taken n o = Some vs -> exists bs', o = Some bs' /\ map (view ints (n - 1)) bs' = vs.
Proof. intros n [bs |] vs H; [| discriminate H]. exists bs. split; [reflexivity |]. unfold taken in H. cbn [option_map] in H. congruence. Qed.
(** A layer is made even if nothing fits: here it takes 10 bytes. *)
Theorem c80_room_refuted : exists bs', rateallocate ints ByRate [ex_goal (-1)] [ex_block [(10, 100)]] = Some bs' /\
  map (view ints 0) bs' = [[(1%nat, 0, 10)]] /\ g_fits (ex_goal (-1)) (map (view ints 0) bs') = false.
Proof.
  destruct (taken_some 1 (rateallocate ints ByRate [ex_goal (-1)] [ex_block [(10, 100)]]) [[(1%nat, 0, 10)]] ltac:(vm_compute; reflexivity)) as (bs' & E & V).
  exists bs'. split; [exact E |]. split; [exact V |]. change (1 - 1)%nat with 0%nat in V. rewrite V. reflexivity.
Qed.
(** Not even if an empty layer would fit. *)
Theorem c80_empty_refuted : exists bs', rateallocate ints ByRate [ex_goal 0] [ex_block [(10, 100)]] = Some bs' /\
  map (view ints 0) bs' = [[(1%nat, 0, 10)]] /\ g_fits (ex_goal 0) (map (view ints 0) bs') = false /\ g_fits (ex_goal 0) [[(0%nat, 0, 0)]] = true.
Proof.
  destruct (taken_some 1 (rateallocate ints ByRate [ex_goal 0] [ex_block [(10, 100)]]) [[(1%nat, 0, 10)]] ltac:(vm_compute; reflexivity)) as (bs' & E & V).
  exists bs'. split; [exact E |]. split; [exact V |]. change (1 - 1)%nat with 0%nat in V. rewrite V. split; reflexivity.
Qed.

(** 4 of 8 bit-planes are coded, in 10 passes: the layers end after 5, 6 and 8 bit-planes. *)
Example c80_fixed_ex : option_map (view ints 2) (fixed_layers ints (fun l => nth l [5; 6; 8] 8) (8 - 4) 3 0 (ex_block (map (fun i => (Z.of_nat i, 0)) (seq 1 10)))) =
  Some [(1%nat, 0, 1); (3%nat, 1, 3); (6%nat, 4, 6)].
Proof. vm_compute. reflexivity. Qed.
Definition one_pass : blk ints := Blk (P := ints) 1 ((3, 9) :: repeat (0, 0) 99) (repeat (Lay (P := ints) 0 0 0 0) 100) 0.
(** An entry above the precision: one pass is coded, and the layer has 37. *)
Theorem c80_fixed_refuted : exists b', fixed_layers ints (fun _ => 20) (8 - 1) 1 0 one_pass = Some b' /\
  b_total b' = 1%nat /\ view ints 0 b' = [(37%nat, 0, 0)].
Proof. eexists. split; [reflexivity |]. split; reflexivity. Qed.
(** An entry above 40: the passes read are outside the array. *)
Theorem c80_fixed_outside_refuted : fixed_layers ints (fun _ => 42) (8 - 1) 1 0 one_pass = None.
Proof. reflexivity. Qed.

Print Assumptions c80_layers.
Print Assumptions c80_contract.
Print Assumptions c80_fits.
Print Assumptions c80_fixed.
Print Assumptions c80_choice.
