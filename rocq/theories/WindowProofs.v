(** The restricted inverse transform, level by level: it agrees with the full
    one on the samples that are needed, and leaves the finer sub-bands alone. *)

From Coq Require Import ZArith List Bool Lia.
From Verif Require Import I32 Ints Mem DwtModel DwtSpec DwtProofs DwtTile SparseModel SparseProofs SparseProps MathModel GeomModel WindowModel WindowLine WindowAxis.
Import ListNotations.
Local Open Scope Z_scope.
Local Notation u32 := Ints.u32.
Ltac Zify.zify_post_hook ::= idtac.

Lemma fetch_spec : forall sa x0 y0 x1 y1 o cs ls buf, wf sa -> 0 <= x0 <= x1 -> 0 <= y0 <= y1 ->
  x1 <= width sa -> y1 <= height sa -> 0 <= cs -> (x1 - x0) * cs <= 2 ^ 32 -> distinct x0 y0 x1 y1 cs ls ->
  exists b, fetch sa x0 y0 x1 y1 o cs ls buf = Some b /\
  (forall x y, x0 <= x < x1 -> y0 <= y < y1 -> b (o + (y - y0) * ls + (x - x0) * cs) = view sa x y) /\
  (forall a, (forall x y, x0 <= x < x1 -> y0 <= y < y1 -> a <> o + (y - y0) * ls + (x - x0) * cs) -> b a = buf a).
Proof.
  intros sa x0 y0 x1 y1 o cs ls buf Hwf Hx Hy Hx1 Hy1 Hcs Hcs' Hd. unfold fetch.
  destruct (Z.eq_dec x0 x1) as [E | NE]; [| destruct (Z.eq_dec y0 y1) as [E | NE']].
  1, 2: destruct (c26_refused (fun _ => true) sa x0 y0 x1 y1 (from o buf) cs ls 1 ltac:(lia)) as [_ ->]; cbn [Z.eqb];
    eexists; (split; [reflexivity |]); split; [intros; lia |]; intros a _; unfold into, from; f_equal; lia.
  pose proof (c26_read sa x0 y0 x1 y1 (from o buf) cs ls 1 Hwf ltac:(lia) ltac:(lia) Hx1 Hy1 Hcs Hcs' Hd) as C.
  destruct (read sa x0 y0 x1 y1 (from o buf) cs ls 1) as [r b]. destruct C as (-> & C1 & C2). cbn [Z.eqb].
  eexists. split; [reflexivity |]. unfold into. split.
  - intros x y Bx By. rewrite <- C1 by assumption. f_equal. lia.
  - intros a Ha. rewrite C2; [unfold from; f_equal; lia |]. intros x y Bx By E. apply (Ha x y Bx By). lia.
Qed.

Lemma store_spec : forall alloc sa x0 y0 x1 y1 o cs ls buf, wf sa -> 0 <= x0 <= x1 -> 0 <= y0 <= y1 ->
  x1 <= width sa -> y1 <= height sa -> 0 <= cs -> (x1 - x0) * cs <= 2 ^ 32 ->
  match store alloc sa x0 y0 x1 y1 o cs ls buf with
  | None => ~ (forall i, alloc i = true)
  | Some sa' => wf sa' /\ width sa' = width sa /\ height sa' = height sa /\
      forall x y, 0 <= x < width sa -> 0 <= y < height sa ->
        (~ (x0 <= x < x1 /\ y0 <= y < y1) -> view sa' x y = view sa x y) /\
        (x0 <= x < x1 /\ y0 <= y < y1 -> view sa' x y = buf (o + (y - y0) * ls + (x - x0) * cs))
  end.
Proof.
  intros alloc sa x0 y0 x1 y1 o cs ls buf Hwf Hx Hy Hx1 Hy1 Hcs Hcs'. unfold store.
  destruct (Z.eq_dec x0 x1) as [E | NE]; [| destruct (Z.eq_dec y0 y1) as [E | NE']].
  1, 2: destruct (c26_refused alloc sa x0 y0 x1 y1 (from o buf) cs ls 1 ltac:(lia)) as [-> _]; cbn [Z.eqb];
    (split; [exact Hwf |]); (split; [reflexivity |]); (split; [reflexivity |]); intros x y _ _; split; [reflexivity | lia].
  pose proof (c26_write alloc sa x0 y0 x1 y1 (from o buf) cs ls 1 Hwf ltac:(lia) ltac:(lia) Hx1 Hy1 Hcs Hcs') as C.
  destruct (write alloc sa x0 y0 x1 y1 (from o buf) cs ls 1) as [r sa']. destruct C as (C1 & C2 & C3 & C4 & C5 & C6).
  destruct C4 as [-> | ->]; cbn [Z.eqb].
  - split; [exact C1 |]. split; [exact C2 |]. split; [exact C3 |]. intros x y Bx By. destruct (C6 x y Bx By) as (D1 & D2 & _).
    split; [exact D1 |]. intros Hin. rewrite D2 by (auto; reflexivity). unfold from. f_equal. lia.
  - intros H. specialize (C5 H). discriminate.
Qed.

(** ** One axis *)

Definition fair (A B P Q : Z) : Prop := 0 <= A /\ A <= P <= Q /\ Q <= B /\ B < 2 ^ 31.

(** The cells of a line the windows of an axis select. *)
Definition inw (a : axis) (t : Z) : Prop :=
  fst (a_low a) <= t < snd (a_low a) \/ fst (a_high a) <= t - a_sn a < snd (a_high a).

Lemma inw_range : forall A B P Q t, fair A B P Q -> inw (ax A B P Q) t -> 0 <= t < B - A.
Proof.
  intros A B P Q t (F1 & F2 & F3 & F4) H. destruct (ax_sizes A B P Q ltac:(lia)) as (_ & _ & S1 & S2 & S3).
  pose proof (ax_low A B P Q F2 F3) as L. pose proof (ax_high A B P Q F2 F3) as G. cbn zeta in L, G. unfold inw in H. lia.
Qed.

Lemma row_wanted_inw : forall A B P Q j, fair A B P Q -> row_wanted (ax A B P Q) j = true <-> inw (ax A B P Q) j.
Proof.
  intros A B P Q j (F1 & F2 & F3 & F4). unfold row_wanted, inw.
  destruct (ax_sizes A B P Q ltac:(lia)) as (_ & _ & S1 & S2 & S3).
  pose proof (ax_low A B P Q F2 F3) as L. pose proof (ax_high A B P Q F2 F3) as G. cbn zeta in L, G.
  rewrite (u32_id (a_sn _)), !u32_id by lia. rewrite orb_true_iff, !andb_true_iff, !Z.leb_le, !Z.ltb_lt. lia.
Qed.

(** [k] interleaved lines side by side, of which lane [c] holds the windows of
    the line [Y]. *)
Lemma decode_axis_spec : forall k A B P Q buf c Y, fair A B P Q -> A < B -> 0 <= c < k -> let a := ax A B P Q in
  (forall i, fst (a_low a) <= i < snd (a_low a) -> buf (lowp (a_cas a) i * k + c) = Y i) ->
  (forall i, fst (a_high a) <= i < snd (a_high a) -> buf (highp (a_cas a) i * k + c) = Y (a_sn a + i)) ->
  forall t, need A B P Q t -> decode_axis k a buf (t * k + c) = iline (A mod 2) (B - A) Y t.
Proof.
  intros k A B P Q buf c Y (F1 & F2 & F3 & F4) HAB Hc a HL HH t Ht.
  destruct (ax_sizes A B P Q ltac:(lia)) as (E1 & E2 & S1 & S2 & S3).
  pose proof (ax_low A B P Q F2 F3) as L. pose proof (ax_high A B P Q F2 F3) as G. cbn zeta in L, G. fold a in E1, E2, S1, S2, S3, L, G.
  unfold decode_axis. rewrite !i32_id by (unfold in_i32; lia).
  rewrite (side_partial k (a_sn a) (a_dn a) (a_cas a) _ _ _ _ buf (fun c q => buf (q * k + c)) ltac:(lia)
             ltac:(intros c' q _; reflexivity) c t Hc). cbn beta.
  rewrite E1, E2. change (a_cas a) with (A mod 2) in *. rewrite E1 in HH, L. rewrite E2 in G.
  apply partial1_spec; first [exact HL | exact HH | apply need_done; assumption | unfold need in Ht; lia].
Qed.

(** ** Rows *)

Definition dims (sa : sparse) (w h : Z) : Prop := wf sa /\ width sa = w /\ height sa = h.

Section Level.
  Variables (alloc : Z -> bool) (w h A B P Q C D R S : Z).
  Hypothesis (FH : fair A B P Q) (FV : fair C D R S) (HW : B - A <= w) (HH : D - C <= h) (HT : D - C <= 2 ^ 30).
  Let ah := ax A B P Q. Let av := ax C D R S.

  Lemma row_spec : forall j sa buf, dims sa w h -> 0 <= j < D - C ->
    match partial_row alloc ah av j (sa, buf) with
    | None => ~ (forall i, alloc i = true)
    | Some (sa', _) => dims sa' w h /\
        (forall x y, 0 <= x < w -> 0 <= y < h -> ~ inw av j \/ y <> j \/ ~ 0 <= x < B - A -> view sa' x y = view sa x y) /\
        (inw av j -> forall Y, (forall x, inw ah x -> view sa x j = Y x) ->
           forall x, need A B P Q x -> view sa' x j = iline (A mod 2) (B - A) Y x)
    end.
  Proof.
    intros j sa buf (Hwf & Ew & Eh) Hj. unfold partial_row.
    pose proof (row_wanted_inw C D R S j FV) as RW. fold av in RW.
    destruct (row_wanted av j).
    2:{ split; [split; [| split]; assumption |]. split; [reflexivity |]. intros H. apply RW in H. discriminate. }
    assert (IN : inw av j) by (apply RW; reflexivity). clear RW.
    destruct FH as (F1 & F2 & F3 & F4). destruct FV as (V1 & V2 & V3 & V4).
    destruct (ax_sizes A B P Q ltac:(lia)) as (E1 & E2 & S1 & S2 & S3).
    pose proof (ax_low A B P Q F2 F3) as L. pose proof (ax_high A B P Q F2 F3) as G. cbn zeta in L, G.
    pose proof (ax_out A B P Q F2 F3) as O. cbn zeta in O.
    fold ah in E1, E2, S1, S2, S3, L, G, O.
    assert (HC : a_cas ah = A mod 2) by reflexivity. pose proof (Z.mod_pos_bound A 2 ltac:(lia)) as HC2.
    unfold interleave_partial_h. rewrite (u32_id (j + 1)) by lia. rewrite (u32_id (a_sn ah)) by lia.
    rewrite !(u32_id (2 * _)) by lia. rewrite !(u32_id (a_sn ah + _)) by lia.
    destruct (fetch_spec sa (fst (a_low ah)) j (snd (a_low ah)) (j + 1) (a_cas ah + 2 * fst (a_low ah)) 2 0 (clear_end ah buf) Hwf
               ltac:(lia) ltac:(lia) ltac:(lia) ltac:(lia) ltac:(lia) ltac:(lia)
               ltac:(intros x y x' y' [I1 I2] [I3 I4] I5; unfold addr in I5; lia)) as (b1 & -> & B1 & B2).
    destruct (fetch_spec sa (a_sn ah + fst (a_high ah)) j (a_sn ah + snd (a_high ah)) (j + 1) (1 - a_cas ah + 2 * fst (a_high ah)) 2 0 b1 Hwf
               ltac:(lia) ltac:(lia) ltac:(lia) ltac:(lia) ltac:(lia) ltac:(lia)
               ltac:(intros x y x' y' [I1 I2] [I3 I4] I5; unfold addr in I5; lia)) as (b2 & -> & B3 & B4).
    cbn [bind].
    pose proof (store_spec alloc sa (fst (a_out ah)) j (snd (a_out ah)) (j + 1) (fst (a_out ah)) 1 0 (decode_axis 1 ah b2) Hwf
               ltac:(lia) ltac:(lia) ltac:(lia) ltac:(lia) ltac:(lia) ltac:(lia)) as ST.
    destruct (store alloc sa (fst (a_out ah)) j (snd (a_out ah)) (j + 1) (fst (a_out ah)) 1 0 (decode_axis 1 ah b2)) as [sa' |]; cbn [bind]; [| exact ST].
    destruct ST as (T1 & T2 & T3 & T4). split; [split; [exact T1 | split; congruence] |]. split.
    - intros x y Hx Hy Hn. apply T4; [rewrite Ew; exact Hx | rewrite Eh; exact Hy |]. intros [I1 I2]. assert (y = j) by lia. destruct Hn as [Hn | [Hn | Hn]]; [contradiction | contradiction | lia].
    - intros _ Y HY x Hx. pose proof (need_out A B P Q x F2 F3 Hx) as NO. fold ah in NO.
      destruct (T4 x j ltac:(lia) ltac:(lia)) as [_ T5]. rewrite T5 by lia.
      replace (fst (a_out ah) + (j - j) * 0 + (x - fst (a_out ah)) * 1) with (x * 1 + 0) by lia.
      apply (decode_axis_spec 1 A B P Q b2 0 Y FH); [unfold need in Hx; lia | lia | | | exact Hx]; fold ah; rewrite HC.
      + intros i Hi. rewrite B4.
        * rewrite <- HY by (left; exact Hi). rewrite <- B1 by lia. f_equal. unfold lowp. rewrite HC. lia.
        * intros x' y' Hx' Hy'. unfold lowp. rewrite HC. pose proof (Z.mod_pos_bound A 2). lia.
      + intros i Hi. rewrite <- HY by (right; lia). rewrite <- B3 by lia. f_equal. unfold highp. rewrite HC. lia.
  Qed.

  Lemma rows_spec : forall sa buf, dims sa w h ->
    match partial_rows alloc ah av (Some (sa, buf)) with
    | None => ~ (forall i, alloc i = true)
    | Some (sa', _) => dims sa' w h /\
        (forall x y, 0 <= x < w -> 0 <= y < h -> ~ (0 <= x < B - A /\ 0 <= y < D - C) -> view sa' x y = view sa x y) /\
        (forall y, inw av y -> forall Y, (forall x, inw ah x -> view sa x y = Y x) ->
           forall x, need A B P Q x -> view sa' x y = iline (A mod 2) (B - A) Y x)
    end.
  Proof.
    intros sa buf Hd. unfold partial_rows. destruct FV as (V1 & V2 & V3 & V4). change (a_n av) with (D - C).
    assert (G : match for_to 0 (D - C) (fun j st => bind st (partial_row alloc ah av j)) (Some (sa, buf)) with
      | None => ~ (forall i, alloc i = true)
      | Some (sa', _) => dims sa' w h /\
        (forall x y, 0 <= x < w -> 0 <= y < h -> ~ (0 <= x < B - A /\ 0 <= y < D - C) -> view sa' x y = view sa x y) /\
        (forall y, inw av y -> 0 <= y < D - C -> forall Y, (forall x, inw ah x -> view sa x y = Y x) ->
           forall x, need A B P Q x -> view sa' x y = iline (A mod 2) (B - A) Y x) /\
        (forall x y, 0 <= x < w -> 0 <= y < h -> D - C <= y -> view sa' x y = view sa x y)
      end).
    { apply (for_ind (fun j st => match st with
        | None => ~ (forall i, alloc i = true)
        | Some (sa', _) => dims sa' w h /\
          (forall x y, 0 <= x < w -> 0 <= y < h -> ~ (0 <= x < B - A /\ 0 <= y < D - C) -> view sa' x y = view sa x y) /\
          (forall y, inw av y -> 0 <= y < j -> forall Y, (forall x, inw ah x -> view sa x y = Y x) ->
             forall x, need A B P Q x -> view sa' x y = iline (A mod 2) (B - A) Y x) /\
          (forall x y, 0 <= x < w -> 0 <= y < h -> j <= y -> view sa' x y = view sa x y) end)); [lia | |].
      - split; [exact Hd |]. split; [reflexivity |]. split; [intros; lia | reflexivity].
      - intros j [[sa1 b1] |] Hj IH; cbn [bind]; [| exact IH]. destruct IH as (I1 & I2 & I3 & I4).
        pose proof (row_spec j sa1 b1 I1 Hj) as RS. destruct (partial_row alloc ah av j (sa1, b1)) as [[sa2 b2] |]; [| exact RS].
        destruct RS as (R1 & R2 & R3). split; [exact R1 |].
        assert (NW : forall x, need A B P Q x -> 0 <= x < w) by (intros x Hx; destruct FH as (F1 & F2 & F3 & F4); unfold need in Hx; lia).
        split; [| split].
        + intros x y Hx Hy Hn. rewrite R2 by (try assumption; lia). apply I2; assumption.
        + intros y Hy Hyj Y HY x Hx. destruct (Z.eq_dec y j) as [-> | Ne].
          * apply R3; [exact Hy | | exact Hx]. intros x' Hx'. pose proof (inw_range A B P Q x' FH Hx'). rewrite I4 by lia. apply HY, Hx'.
          * rewrite R2 by (try (apply NW, Hx); lia). apply I3; [exact Hy | lia | exact HY | exact Hx].
        + intros x y Hx Hy Hn. rewrite R2 by lia. apply I4; lia. }
    destruct (for_to 0 (D - C) (fun j st => bind st (partial_row alloc ah av j)) (Some (sa, buf))) as [[sa' b'] |]; [| exact G].
    destruct G as (G1 & G2 & G3 & G4). split; [exact G1 |]. split; [exact G2 |].
    intros y Hy. apply G3; [exact Hy |]. apply (inw_range C D R S); assumption.
  Qed.

  (** ** Columns *)

  Definition col_step (q : Z) (st : option state) : option state :=
    let i := fst (a_out ah) + 4 * q in
    let cols := Z.min 4 (u32 (snd (a_out ah) - i)) in
    bind st (fun st => let '(sa, buf) := st in
    bind (interleave_partial_v av sa i cols buf) (fun buf =>
    let buf := decode_axis 4 av buf in
    bind (store alloc sa i (fst (a_out av)) (u32 (i + cols)) (snd (a_out av)) (u32 (4 * fst (a_out av))) 1 4 buf) (fun sa => Some (sa, buf)))).

  Lemma col_spec : forall q sa buf, dims sa w h -> 0 <= q < (snd (a_out ah) - fst (a_out ah) + 3) / 4 ->
    let i := fst (a_out ah) + 4 * q in
    match col_step q (Some (sa, buf)) with
    | None => ~ (forall i, alloc i = true)
    | Some (sa', _) => dims sa' w h /\
        (forall x y, 0 <= x < w -> 0 <= y < h -> ~ (i <= x < i + 4 /\ x < snd (a_out ah) /\ 0 <= y < D - C) -> view sa' x y = view sa x y) /\
        (forall x, i <= x < i + 4 -> x < snd (a_out ah) -> forall Y, (forall y, inw av y -> view sa x y = Y y) ->
           forall y, need C D R S y -> view sa' x y = iline (C mod 2) (D - C) Y y)
    end.
  Proof.
    intros q sa buf (Hwf & Ew & Eh) Hq i. unfold col_step. fold i.
    destruct FH as (F1 & F2 & F3 & F4). destruct FV as (V1 & V2 & V3 & V4).
    pose proof (ax_out A B P Q F2 F3) as O. cbn zeta in O. fold ah in O.
    assert (Hi : 0 <= i < snd (a_out ah)) by (subst i; pose proof (Z.div_mod (snd (a_out ah) - fst (a_out ah) + 3) 4 ltac:(lia)); pose proof (Z.mod_pos_bound (snd (a_out ah) - fst (a_out ah) + 3) 4 ltac:(lia)); lia).
    rewrite (u32_id (snd (a_out ah) - i)) by lia. set (cols := Z.min 4 (snd (a_out ah) - i)). assert (HN : 1 <= cols <= 4 /\ i + cols <= snd (a_out ah)) by lia.
    assert (HN2 : forall x, i <= x < i + 4 -> x < snd (a_out ah) -> x < i + cols) by (intros; subst cols; lia). clearbody cols i.
    destruct (ax_sizes C D R S ltac:(lia)) as (E1 & E2 & S1 & S2 & S3).
    pose proof (ax_low C D R S V2 V3) as (L & L2 & _). pose proof (ax_high C D R S V2 V3) as (G & G2 & _).
    pose proof (ax_out C D R S V2 V3) as OV. cbn zeta in OV.
    pose proof (ax_starts C D R S V2 V3 HT) as L8. cbn zeta in L8.
    fold av in E1, E2, S1, S2, S3, L, L2, G, G2, OV, L8.
    assert (HC : a_cas av = C mod 2) by reflexivity. pose proof (Z.mod_pos_bound C 2 ltac:(lia)) as HC2.
    cbn [bind]. unfold interleave_partial_v. rewrite (u32_id (i + cols)) by lia. rewrite (u32_id (a_sn av)) by lia.
    rewrite !(u32_id (8 * _)) by lia. rewrite !(u32_id (a_sn av + _)) by lia. rewrite (u32_id (4 * fst (a_out av))) by lia.
    destruct (fetch_spec sa i (fst (a_low av)) (i + cols) (snd (a_low av)) (a_cas av * 4 + 8 * fst (a_low av)) 1 8 buf Hwf
               ltac:(lia) ltac:(lia) ltac:(lia) ltac:(lia) ltac:(lia) ltac:(lia)
               ltac:(intros x y x' y' [I1 I2] [I3 I4] I5; unfold addr in I5; lia)) as (b1 & -> & B1 & B2).
    destruct (fetch_spec sa i (a_sn av + fst (a_high av)) (i + cols) (a_sn av + snd (a_high av)) ((1 - a_cas av) * 4 + 8 * fst (a_high av)) 1 8 b1 Hwf
               ltac:(lia) ltac:(lia) ltac:(lia) ltac:(lia) ltac:(lia) ltac:(lia)
               ltac:(intros x y x' y' [I1 I2] [I3 I4] I5; unfold addr in I5; lia)) as (b2 & -> & B3 & B4).
    cbn [bind].
    pose proof (store_spec alloc sa i (fst (a_out av)) (i + cols) (snd (a_out av)) (4 * fst (a_out av)) 1 4 (decode_axis 4 av b2) Hwf
               ltac:(lia) ltac:(lia) ltac:(lia) ltac:(lia) ltac:(lia) ltac:(lia)) as ST.
    destruct (store alloc sa i (fst (a_out av)) (i + cols) (snd (a_out av)) (4 * fst (a_out av)) 1 4 (decode_axis 4 av b2)) as [sa' |]; cbn [bind]; [| exact ST].
    destruct ST as (T1 & T2 & T3 & T4). split; [split; [exact T1 | split; congruence] |]. split.
    - intros x y Hx Hy Hn. apply T4; [rewrite Ew; exact Hx | rewrite Eh; exact Hy |]. intros [I1 I2]. apply Hn. clear - I1 I2 HN OV O. lia.
    - intros x Hx1 Hx2 Y HY y Hy. pose proof (need_out C D R S y V2 V3 Hy) as NO. fold av in NO. pose proof (HN2 x Hx1 Hx2) as HX.
      assert (HXW : 0 <= x < width sa) by (clear - HX Hx1 HN O Hi Ew HW; lia). assert (HYH : 0 <= y < height sa) by (clear - NO OV Eh HH; lia).
      destruct (T4 x y HXW HYH) as [_ T5]. rewrite T5 by (clear - NO HX Hx1; lia).
      replace (4 * fst (a_out av) + (y - fst (a_out av)) * 4 + (x - i) * 1) with (y * 4 + (x - i)) by lia.
      apply (decode_axis_spec 4 C D R S b2 (x - i) Y FV); [clear - NO OV; lia | clear - HX Hx1 HN; lia | | | exact Hy]; fold av; rewrite HC.
      + intros k Hk. rewrite B4.
        * rewrite <- HY by (left; exact Hk). rewrite <- B1 by lia. f_equal. unfold lowp. rewrite HC. lia.
        * intros x' y' Hx' Hy'. unfold lowp. rewrite HC. clear - HC2 Hx' Hx1 HN. lia.
      + intros k Hk. rewrite <- HY by (right; lia). rewrite <- B3 by lia. f_equal. unfold highp. rewrite HC. lia.
  Qed.
  Lemma partial_cols_eq : forall st, partial_cols alloc ah av st = for_to 0 ((snd (a_out ah) - fst (a_out ah) + 3) / 4) col_step st.
  Proof. intros st. unfold partial_cols, col_step. destruct (a_out ah) as [t0 t1]. reflexivity. Qed.

  Lemma cols_spec : forall sa buf, dims sa w h ->
    match partial_cols alloc ah av (Some (sa, buf)) with
    | None => ~ (forall i, alloc i = true)
    | Some (sa', _) => dims sa' w h /\
        (forall x y, 0 <= x < w -> 0 <= y < h -> ~ (0 <= x < B - A /\ 0 <= y < D - C) -> view sa' x y = view sa x y) /\
        (forall x, fst (a_out ah) <= x < snd (a_out ah) -> forall Y, (forall y, inw av y -> view sa x y = Y y) ->
           forall y, need C D R S y -> view sa' x y = iline (C mod 2) (D - C) Y y)
    end.
  Proof.
    intros sa buf Hd. rewrite partial_cols_eq. destruct FH as (F1 & F2 & F3 & F4). destruct FV as (V1 & V2 & V3 & V4).
    pose proof (ax_out A B P Q F2 F3) as O. cbn zeta in O. fold ah in O.
    set (t0 := fst (a_out ah)) in *. set (t1 := snd (a_out ah)) in *.
    assert (DM : 0 <= (t1 - t0 + 3) / 4 /\ t1 - t0 <= 4 * ((t1 - t0 + 3) / 4)).
    { pose proof (Z.div_mod (t1 - t0 + 3) 4 ltac:(lia)). pose proof (Z.mod_pos_bound (t1 - t0 + 3) 4 ltac:(lia)). lia. }
    set (N := (t1 - t0 + 3) / 4) in *.
    assert (G : match for_to 0 N col_step (Some (sa, buf)) with
      | None => ~ (forall i, alloc i = true)
      | Some (sa', _) => dims sa' w h /\
        (forall x y, 0 <= x < w -> 0 <= y < h -> ~ (0 <= x < B - A /\ 0 <= y < D - C) -> view sa' x y = view sa x y) /\
        (forall x, t0 <= x < t1 -> x < t0 + 4 * N -> forall Y, (forall y, inw av y -> view sa x y = Y y) ->
           forall y, need C D R S y -> view sa' x y = iline (C mod 2) (D - C) Y y) /\
        (forall x y, 0 <= x < w -> 0 <= y < h -> t0 + 4 * N <= x -> view sa' x y = view sa x y)
      end).
    { apply (for_ind (fun q st => match st with
        | None => ~ (forall i, alloc i = true)
        | Some (sa', _) => dims sa' w h /\
          (forall x y, 0 <= x < w -> 0 <= y < h -> ~ (0 <= x < B - A /\ 0 <= y < D - C) -> view sa' x y = view sa x y) /\
          (forall x, t0 <= x < t1 -> x < t0 + 4 * q -> forall Y, (forall y, inw av y -> view sa x y = Y y) ->
             forall y, need C D R S y -> view sa' x y = iline (C mod 2) (D - C) Y y) /\
          (forall x y, 0 <= x < w -> 0 <= y < h -> t0 + 4 * q <= x -> view sa' x y = view sa x y) end)); [lia | |].
      - split; [exact Hd |]. split; [reflexivity |]. split; [intros; lia | reflexivity].
      - intros q [[sa1 b1] |] Hq IH; [| exact IH]. destruct IH as (I1 & I2 & I3 & I4).
        pose proof (col_spec q sa1 b1 I1 Hq) as RS. cbn zeta in RS. fold t0 t1 in RS.
        destruct (col_step q (Some (sa1, b1))) as [[sa2 b2] |]; [| exact RS].
        destruct RS as (R1 & R2 & R3). split; [exact R1 |].
        assert (NW : forall y, need C D R S y -> 0 <= y < h) by (intros y Hy; unfold need in Hy; lia).
        split; [| split].
        + intros x y Hx Hy Hn. rewrite R2; [apply I2; assumption | exact Hx | exact Hy |]. intros K. apply Hn. lia.
        + intros x Hx Hxq Y HY y Hy. destruct (Z_lt_ge_dec x (t0 + 4 * q)).
          * rewrite R2 by (try (apply NW, Hy); lia). apply I3; [exact Hx | lia | exact HY | exact Hy].
          * apply R3; [lia | lia | | exact Hy]. intros y' Hy'. pose proof (inw_range C D R S y' FV Hy'). rewrite I4 by lia. apply HY, Hy'.
        + intros x y Hx Hy Hn. rewrite R2 by lia. apply I4; lia. }
    destruct (for_to 0 N col_step (Some (sa, buf))) as [[sa' b'] |]; [| exact G].
    destruct G as (G1 & G2 & G3 & G4). split; [exact G1 |]. split; [exact G2 |].
    intros x Hx. apply G3; [exact Hx | lia].
  Qed.

  (** ** One level, against the full transform of a plane with rows of [w] *)

  Let lo := mkR ((A + 1) / 2) ((C + 1) / 2) ((B + 1) / 2) ((D + 1) / 2).
  Let r := mkR A C B D.

  Lemma level_spec : forall sa buf m tmp, dims sa w h -> (D - C) * w <= 2 ^ 32 ->
    (forall x y, inw ah x -> inw av y -> view sa x y = m (y * w + x)) ->
    match partial_cols alloc ah av (partial_rows alloc ah av (Some (sa, buf))) with
    | None => ~ (forall i, alloc i = true)
    | Some (sa', _) => dims sa' w h /\
        (forall x y, 0 <= x < w -> 0 <= y < h -> ~ (0 <= x < B - A /\ 0 <= y < D - C) -> view sa' x y = view sa x y) /\
        (forall x y, need A B P Q x -> need C D R S y -> view sa' x y = fst (decode_level w lo r (m, tmp)) (y * w + x))
    end.
  Proof.
    intros sa buf m tmp Hd Hsz Hm. pose proof (rows_spec sa buf Hd) as RS.
    destruct (partial_rows alloc ah av (Some (sa, buf))) as [[sa1 b1] |].
    2:{ assert (N : partial_cols alloc ah av None = None); [| rewrite N; exact RS].
        rewrite partial_cols_eq. apply (for_ind (fun _ st => st = None)); [| reflexivity | intros q st Hq ->; reflexivity].
        destruct FH as (F1 & F2 & F3 & F4). pose proof (ax_out A B P Q F2 F3) as O. cbn zeta in O. fold ah in O. apply Z.div_pos; lia. }
    destruct RS as (R1 & R2 & R3). pose proof (cols_spec sa1 b1 R1) as CS.
    match goal with |- match ?t with _ => _ end => change (partial_cols alloc ah av (Some (sa1, b1))) with t in CS; destruct t as [[sa2 b2] |]; [| exact CS] end. destruct CS as (C1 & C2 & C3).
    split; [exact C1 |]. split.
    { intros x y Hx Hy Hn. rewrite C2 by assumption. apply R2; assumption. }
    intros x y Hx Hy. destruct FH as (F1 & F2 & F3 & F4). destruct FV as (V1 & V2 & V3 & V4).
    assert (Hf : fits w r) by (unfold fits, r; cbn [x0 x1 y0 y1]; lia).
    assert (Hh : halves lo r) by (unfold halves, lo, r; cbn [x0 x1 y0 y1]; auto).
    unfold decode_level.
    pose proof (decode_hpass_spec w lo r (m, tmp) Hf Hh F1) as [H1 _].
    pose proof (decode_vpass_spec w lo r (decode_hpass w lo r (m, tmp)) Hf Hh V1) as [W1 _].
    unfold r in H1, W1. cbn [x0 x1 y0 y1 fst] in H1, W1. fold r in H1, W1.
    assert (Nx : 0 <= x < B - A) by (clear - Hx; unfold need in Hx; lia). assert (Ny : 0 <= y < D - C) by (clear - Hy; unfold need in Hy; lia).
    rewrite W1 by assumption.
    apply C3; [apply need_out; assumption | | exact Hy].
    intros y' Hy'. pose proof (inw_range C D R S y' FV Hy') as Ry'. rewrite H1 by assumption.
    apply R3; [exact Hy' | | exact Hx]. intros x' Hx'. apply Hm; assumption.
  Qed.
End Level.
