(** Facts about the raw (bypass) coder. *)

From Coq Require Import ZArith List Lia Bool.
From Verif Require Import BioSpec BioProofs ZBits Ints Mem MqModel MqProofs.
Import ListNotations.
Local Open Scope Z_scope.

(** The bit at position [i] of a finite list continued by ones. *)
Definition bit_at (l : list bool) (i : nat) : bool := nth i l true.

(** Bytes of a raw segment: after 0xFF only seven bits are used. *)
Fixpoint stuffed (prev : Z) (bs : list Z) : Prop :=
  match bs with [] => True | x :: r => 0 <= x <= 255 /\ (prev = 255 -> x < 128) /\ stuffed x r end.

Lemma stuffed_app : forall a p b, stuffed p (a ++ b) <-> stuffed p a /\ stuffed (last a p) b.
Proof.
  induction a as [| x a IH]; intros p b; [cbn; tauto |].
  change ((x :: a) ++ b) with (x :: (a ++ b)). cbn [stuffed]. rewrite IH. destruct a as [| y a]; [cbn; tauto |].
  replace (last (x :: y :: a) p) with (last (y :: a) x); [tauto |].
  clear. revert x y. induction a as [| z a IH]; intros x y; [reflexivity |]. exact (IH x z).
Qed.

Lemma number_snoc : forall l b, number (l ++ [b]) = 2 * number l + Z.b2z b.
Proof.
  induction l as [| x l IH]; intros b.
  - destruct b; reflexivity.
  - cbn [app number]. rewrite IH, app_length. cbn [length]. replace (Z.of_nat (length l + 1)) with (Z.of_nat (length l) + 1) by lia.
    rewrite Z.pow_add_r by lia. change (2 ^ 1) with 2. ring.
Qed.

(** ** Encoder *)

Record Raw (seg : Z) (s0 : mqc) (l : list bool) (bs : list Z) (pend : list bool) (s : mqc) : Prop := mkRaw {
  w_bp : bp s = seg + Z.of_nat (length bs);
  w_in : forall i, (i < length bs)%nat -> buf s (seg + Z.of_nat i) = nth i bs 0;
  w_before : forall i, i < seg -> buf s i = buf s0 i;
  w_bytes : bytes (buf s);
  w_ctx : ctxs s = ctxs s0;
  w_ok : ok s = true;
  w_l : l = unstuff 0 bs ++ pend;
  w_stuffed : stuffed 0 bs;
  w_regs : l = [] /\ bs = [] /\ pend = [] /\ ct s = CT_INIT /\ c s = 0 \/
           l <> [] /\ 1 <= ct s /\ Z.of_nat (length pend) = Z.of_nat (width (last bs 0)) - ct s /\ c s = number pend * 2 ^ ct s }.

Lemma snoc_in : forall bs v seg m, (forall i, (i < length bs)%nat -> m (seg + Z.of_nat i) = nth i bs 0) ->
  forall i, (i < length (bs ++ [v]))%nat -> upd m (seg + Z.of_nat (length bs)) v (seg + Z.of_nat i) = nth i (bs ++ [v]) 0.
Proof.
  intros bs v seg m H i Hi. rewrite app_length in Hi. cbn [length] in Hi. destruct (Nat.eq_dec i (length bs)) as [-> | Hne].
  - rewrite upd_same. rewrite app_nth2, Nat.sub_diag by lia. reflexivity.
  - rewrite upd_other by lia. rewrite app_nth1 by lia. apply H. lia.
Qed.

Lemma raw_step : forall seg s0 l bs pend s d, Raw seg s0 l bs pend s ->
  exists bs' pend', Raw seg s0 (l ++ [d]) bs' pend' (bypass_enc (Z.b2z d) s).
Proof.
  intros seg s0 l bs pend s d [Hbp Hin Hbe Hby Hcx Hok Hl Hst Hrg].
  set (w := width (last bs 0)). assert (Hw : (w = 7 \/ w = 8)%nat) by (unfold w; destruct (width_cases (last bs 0)) as [[_ ->] | [_ ->]]; auto).
  set (k := if ct s =? CT_INIT then 8 else ct s).
  assert (Hk : 1 <= k <= Z.of_nat w /\ Z.of_nat (length pend) = Z.of_nat w - k /\ c s = number pend * 2 ^ k).
  { unfold k. destruct Hrg as [(_ & -> & -> & -> & ->) | (_ & H1 & H2 & H3)].
    - change (CT_INIT =? CT_INIT) with true. unfold w. cbn. lia.
    - fold w in H2. destruct (Z.eqb_spec (ct s) CT_INIT) as [E | E]; [unfold CT_INIT in E; lia |]. split; [lia |]. split; assumption. }
  destruct Hk as (Hk1 & Hk2 & Hk3). unfold bypass_enc. fold k. rewrite (u32_id (k - 1)) by lia.
  rewrite Z.mod_small by lia.
  pose proof (number_range pend) as Rp. pose proof (number_range (pend ++ [d])) as Rp1. rewrite app_length in Rp1. cbn [length] in Rp1.
  replace (Z.of_nat (length pend + 1)) with (Z.of_nat w - (k - 1)) in Rp1 by lia.
  pose proof (p2 (k - 1) ltac:(lia)) as Pk. assert (Ek : 2 ^ k = 2 * 2 ^ (k - 1)) by (replace k with (1 + (k - 1)) at 1 by lia; rewrite Z.pow_add_r by lia; reflexivity).
  assert (Ew : 2 ^ Z.of_nat w = 2 ^ (Z.of_nat w - (k - 1)) * 2 ^ (k - 1)) by (rewrite <- Z.pow_add_r by lia; f_equal; lia).
  assert (W8 : 2 ^ Z.of_nat w <= 256) by (destruct Hw as [-> | ->]; cbn; lia).
  assert (Ed : shl (Z.b2z d) (k - 1) = Z.b2z d * 2 ^ (k - 1)).
  { apply shl_id; [lia |]. assert (2 ^ (k - 1) <= 2 ^ 8) by (apply Z.pow_le_mono_r; lia). destruct d; cbn [Z.b2z]; lia. }
  assert (Ec : c s + Z.b2z d * 2 ^ (k - 1) = number (pend ++ [d]) * 2 ^ (k - 1)) by (rewrite number_snoc, Hk3, Ek; ring).
  assert (Bc : 0 <= number (pend ++ [d]) * 2 ^ (k - 1) < 256) by nia.
  rewrite Ed, Ec, u32_id by lia. unfold put_raw. destruct (Z.eqb_spec (k - 1) 0) as [E0 | E0].
  - assert (E1 : number (pend ++ [d]) * 2 ^ (k - 1) = number (pend ++ [d])) by (rewrite E0; change (2 ^ 0) with 1; lia).
    rewrite E1 in *. rewrite Z.mod_small by lia. set (v := number (pend ++ [d])) in *.
    exists (bs ++ [v]), (@nil bool). constructor; cbn [c a ct bp buf ctxs ok].
    + rewrite app_length. cbn [length]. lia.
    + rewrite Hbp. apply snoc_in. exact Hin.
    + intros i Hi. rewrite upd_other by lia. apply Hbe, Hi.
    + intros i. unfold upd. destruct (i =? bp s); [lia | apply Hby].
    + exact Hcx.
    + exact Hok.
    + rewrite Hl, app_nil_r, unstuff_app. cbn [unstuff]. rewrite app_nil_r, <- app_assoc. f_equal.
      change (pend ++ [d] = bits_of w v).
      replace w with (length (pend ++ [d])) by (rewrite app_length; cbn [length]; lia). symmetry. apply bits_number.
    + apply stuffed_app. split; [exact Hst |]. cbn [stuffed]. split; [lia |]. split; [| exact I].
      intros E. assert (E7 : w = 7%nat) by (unfold w, width; rewrite E; reflexivity). rewrite E7, E0 in Rp1. change (2 ^ (Z.of_nat 7 - 0)) with 128 in Rp1. lia.
    + right. split; [destruct l; discriminate |]. rewrite last_app1. cbn [length number]. unfold width.
      destruct (v =? 255); cbn; lia.
  - exists bs, (pend ++ [d]). constructor; cbn [c a ct bp buf ctxs ok]; try assumption.
    + rewrite Hl, app_assoc. reflexivity.
    + right. split; [destruct l; discriminate |]. split; [lia |]. split; [rewrite app_length; cbn [length]; fold w; lia | reflexivity].
Qed.

Definition bypass_all (l : list bool) (s : mqc) : mqc := fold_left (fun s d => bypass_enc (Z.b2z d) s) l s.

Lemma raw_all : forall seg s0 l2 l1 bs pend s, Raw seg s0 l1 bs pend s -> exists bs' pend', Raw seg s0 (l1 ++ l2) bs' pend' (bypass_all l2 s).
Proof.
  intros seg s0. induction l2 as [| d l2 IH]; intros l1 bs pend s H.
  - rewrite app_nil_r. exists bs, pend. exact H.
  - destruct (raw_step _ _ _ _ _ _ d H) as (bs1 & p1 & H1). cbn [bypass_all fold_left].
    replace (l1 ++ d :: l2) with ((l1 ++ [d]) ++ l2) by (rewrite <- app_assoc; reflexivity). exact (IH _ _ _ _ H1).
Qed.

(** The padding is 0,1,0,1,... *)
Fixpoint alternating (n : nat) (b : bool) : list bool := match n with O => [] | S n => b :: alternating n (negb b) end.

Lemma alternating_length : forall n b, length (alternating n b) = n.
Proof. induction n; intros b; cbn [alternating length]; [reflexivity | rewrite IHn; reflexivity]. Qed.

Lemma pad_number : forall n b p x, (length p + n <= 8)%nat -> x = number p * 2 ^ Z.of_nat n ->
  pad n (Z.b2z b) (Z.of_nat n) x = number (p ++ alternating n b).
Proof.
  induction n as [| n IH]; intros b p x Hn ->.
  - cbn [pad alternating]. rewrite app_nil_r. change (2 ^ Z.of_nat 0) with 1. lia.
  - cbn [pad alternating]. replace (Z.of_nat (S n) - 1) with (Z.of_nat n) by lia. replace (1 - Z.b2z b) with (Z.b2z (negb b)) by (destruct b; reflexivity).
    replace (p ++ b :: alternating n (negb b)) with ((p ++ [b]) ++ alternating n (negb b)) by (rewrite <- app_assoc; reflexivity).
    pose proof (p2 (Z.of_nat n) ltac:(lia)) as Pn. assert (Pn8 : 2 ^ Z.of_nat n <= 2 ^ 8) by (apply Z.pow_le_mono_r; lia).
    rewrite shl_id by (try lia; destruct b; cbn [Z.b2z]; lia).
    assert (Es : number p * 2 ^ Z.of_nat (S n) + Z.b2z b * 2 ^ Z.of_nat n = number (p ++ [b]) * 2 ^ Z.of_nat n).
    { rewrite number_snoc. replace (Z.of_nat (S n)) with (1 + Z.of_nat n) by lia. rewrite Z.pow_add_r by lia. change (2 ^ 1) with 2. ring. }
    rewrite Es. rewrite u32_id.
    + apply IH; [rewrite app_length; cbn [length]; lia | reflexivity].
    + pose proof (number_range (p ++ [b])) as Rb. assert (2 ^ Z.of_nat (length (p ++ [b])) <= 2 ^ 8) by (apply Z.pow_le_mono_r; [lia |]; rewrite app_length; cbn [length]; lia). nia.
Qed.

Lemma repeat_bits : forall n, (n <= 8)%nat -> bits_of n 255 = repeat true n /\ bits_of (Nat.pred n) 127 = repeat true (Nat.pred n).
Proof. intros n Hn. do 9 (destruct n as [| n]; [split; reflexivity |]). lia. Qed.

(** A list is read back from [r] continued by ones. *)
Definition prefix (l r : list bool) : Prop := forall i, (i < length l)%nat -> bit_at r i = bit_at l i.

Lemma prefix_app : forall l t, prefix l (l ++ t).
Proof. intros l t i Hi. unfold bit_at. rewrite app_nth1 by exact Hi. reflexivity. Qed.

Lemma prefix_ones : forall l n, prefix (l ++ repeat true n) l.
Proof.
  intros l n i Hi. unfold bit_at. destruct (Nat.lt_ge_cases i (length l)) as [L | G].
  - rewrite app_nth1 by exact L. reflexivity.
  - rewrite nth_overflow by exact G. rewrite app_nth2 by exact G. symmetry. generalize (i - length l)%nat. clear. induction n; intros [| k]; cbn; auto.
Qed.

Lemma last_cases : forall (bs : list Z), bs = [] \/ exists b v, bs = b ++ [v].
Proof. intros bs. destruct bs as [| x r]; [left; reflexivity | right]. destruct (exists_last (l := x :: r)) as (b & v & E); [discriminate |]. exists b, v. exact E. Qed.

Lemma raw_tail : forall seg s0 l bs pend s erterm, Raw seg s0 l bs pend s -> buf s0 (seg - 1) <> 255 ->
  let s' := bypass_tail erterm s in
  exists bs', bp s' = seg + Z.of_nat (length bs') /\ (forall i, (i < length bs')%nat -> buf s' (seg + Z.of_nat i) = nth i bs' 0) /\
    (forall i, i < seg -> buf s' i = buf s0 i) /\ bytes (buf s') /\ ctxs s' = ctxs s0 /\ ok s' = true /\ stuffed 0 bs' /\ last bs' 0 <> 255 /\
    prefix l (unstuff 0 bs').
Proof.
  intros seg s0 l bs pend s erterm [Hbp Hin Hbe Hby Hcx Hok Hl Hst Hrg] Hprev. cbn zeta.
  (* the byte before [bp] *)
  assert (Epv : buf s (bp s - 1) =? 255 = (last bs 0 =? 255)).
  { destruct (last_cases bs) as [-> | (b & v & ->)].
    - rewrite Hbp. cbn [length last]. replace (seg + Z.of_nat 0 - 1) with (seg - 1) by lia. rewrite Hbe by lia. apply Z.eqb_neq. exact Hprev.
    - rewrite last_app1, Hbp, app_length. cbn [length]. replace (seg + Z.of_nat (length b + 1) - 1) with (seg + Z.of_nat (length b)) by lia.
      rewrite Hin by (rewrite app_length; cbn [length]; lia). rewrite app_nth2, Nat.sub_diag by lia. reflexivity. }
  unfold bypass_tail. rewrite Epv.
  destruct Hrg as [(-> & -> & -> & Ect & Ec) | (Hne & Hct & Hpl & Hc)].
  { rewrite Ect. change ((CT_INIT <? 7) || (CT_INIT =? 7) && (erterm || negb (last [] 0 =? 255))) with false. cbn match.
    change ((CT_INIT =? 7) && (last [] 0 =? 255)) with false. change ((CT_INIT =? 8) && negb erterm) with false. cbn match. cbn [andb].
    exists []. repeat (split; [assumption || exact I |]). split; [cbn; lia |]. intros i Hi. cbn in Hi. lia. }
  destruct ((ct s <? 7) || (ct s =? 7) && (erterm || negb (last bs 0 =? 255))) eqn:G1.
  - (* pad *)
    set (w := width (last bs 0)) in *. assert (Hw : (w = 7 \/ w = 8)%nat) by (unfold w; destruct (width_cases (last bs 0)) as [[_ ->] | [_ ->]]; auto).
    assert (Hct7 : ct s <= 7).
    { apply orb_prop in G1. destruct G1 as [G1 | G1]; [apply Z.ltb_lt in G1; lia |]. apply andb_prop in G1. destruct G1 as [G1 _]. apply Z.eqb_eq in G1. lia. }
    set (n := Z.to_nat (ct s)). assert (En : Z.of_nat n = ct s) by (unfold n; lia).
    change 0 with (Z.b2z false). rewrite <- En. rewrite (pad_number n false pend (c s)) by (try lia; rewrite En; exact Hc).
    set (v := number (pend ++ alternating n false)). cbn [Z.b2z].
    assert (Lw : length (pend ++ alternating n false) = w) by (rewrite app_length, alternating_length; lia).
    pose proof (number_range (pend ++ alternating n false)) as Rv. rewrite Lw in Rv. fold v in Rv.
    assert (W8 : 2 ^ Z.of_nat w <= 256) by (destruct Hw as [-> | ->]; cbn; lia).
    assert (Hv : v <> 255).
    { intros E. assert (Eb : bits_of w v = pend ++ alternating n false) by (rewrite <- Lw; apply bits_number).
      rewrite E in Eb. destruct (repeat_bits w ltac:(lia)) as [Er _]. rewrite Er in Eb.
      destruct n as [| n]; [lia |]. cbn [alternating] in Eb. assert (In false (repeat true w)) by (rewrite Eb; apply in_or_app; right; left; reflexivity).
      apply repeat_spec in H. discriminate. }
    rewrite (Z.mod_small v) by lia. exists (bs ++ [v]). cbn [c a ct bp buf ctxs ok].
    split; [rewrite app_length; cbn [length]; lia |]. split; [rewrite Hbp; apply snoc_in; exact Hin |].
    split; [intros i Hi; rewrite upd_other by lia; apply Hbe, Hi |]. split; [intros i; unfold upd; destruct (i =? bp s); [lia | apply Hby] |].
    split; [exact Hcx |]. split; [exact Hok |]. split; [| split; [rewrite last_app1; exact Hv |]].
    + apply stuffed_app. split; [exact Hst |]. cbn [stuffed]. split; [lia |]. split; [| exact I].
      intros E. assert (E7 : w = 7%nat) by (unfold w, width; rewrite E; reflexivity). rewrite E7 in Rv. change (2 ^ Z.of_nat 7) with 128 in Rv. lia.
    + rewrite unstuff_app. cbn [unstuff]. rewrite app_nil_r. change (bits_of (if last bs 0 =? 255 then 7%nat else 8%nat) v) with (bits_of w v).
      rewrite <- Lw at 1. unfold v. rewrite bits_number, Hl, app_assoc. apply prefix_app.
  - apply orb_false_elim in G1. destruct G1 as [G1 G2]. apply Z.ltb_ge in G1.
    destruct ((ct s =? 7) && (last bs 0 =? 255)) eqn:G3.
    + (* drop 0xFF *)
      apply andb_prop in G3. destruct G3 as [G3 G4]. rewrite G3, G4 in G2. cbn [andb negb] in G2. rewrite orb_false_r in G2. subst erterm.
      apply Z.eqb_eq in G3, G4. destruct (last_cases bs) as [-> | (b & v & ->)]; [cbn in G4; lia |]. rewrite last_app1 in *. subst v.
      apply stuffed_app in Hst. destruct Hst as [Sb Sv]. cbn [stuffed] in Sv. destruct Sv as (_ & Sv & _).
      assert (Hb : last b 0 <> 255) by (intros E; specialize (Sv E); lia).
      change (width 255) with 7%nat in Hpl. destruct pend as [| ? ?]; [| cbn [length] in Hpl; lia].
      exists b. cbn [set_bp check c a ct bp buf ctxs ok negb]. rewrite app_length in Hbp. cbn [length] in Hbp. rewrite andb_true_r.
      split; [lia |]. split; [intros i Hi; rewrite Hin by (rewrite app_length; lia); apply app_nth1; exact Hi |].
      repeat (split; [assumption |]). rewrite Hl, app_nil_r, unstuff_app. cbn [unstuff]. rewrite app_nil_r.
      replace (last b 0 =? 255) with false by (symmetry; apply Z.eqb_neq; exact Hb). change (bits_of 8 255) with (repeat true 8). apply prefix_ones.
    + set (w := width (last bs 0)) in *. assert (Ew : w = 8%nat /\ ct s = 8 /\ last bs 0 <> 255).
      { unfold w, width in *. destruct (Z.eqb_spec (last bs 0) 255) as [E | E].
        - rewrite andb_true_r in G3. apply Z.eqb_neq in G3. lia.
        - destruct (Z.eqb_spec (ct s) 7) as [E7 | E7]; [| lia]. cbn [andb negb] in G2. rewrite orb_true_r in G2. discriminate. }
      destruct Ew as (Ew & Ec8 & Hlast). rewrite Ew in *. destruct pend as [| ? ?]; [| cbn [length] in Hpl; lia]. rewrite app_nil_r in Hl.
      destruct ((ct s =? 8) && negb erterm && (buf s (bp s - 1) =? 127) && (buf s (bp s - 2) =? 255)) eqn:G4.
      * (* drop 0xFF 0x7F *)
        apply andb_prop in G4. destruct G4 as [G4 G5]. apply andb_prop in G4. destruct G4 as [G4 G6]. clear G4. apply Z.eqb_eq in G5, G6.
        destruct (last_cases bs) as [-> | (b1 & v & ->)]; [cbn in Hl; contradiction |].
        assert (Ev : v = 127).
        { rewrite <- G6, Hbp, app_length. cbn [length]. replace (seg + Z.of_nat (length b1 + 1) - 1) with (seg + Z.of_nat (length b1)) by lia.
          rewrite Hin by (rewrite app_length; cbn [length]; lia). rewrite app_nth2, Nat.sub_diag by lia. reflexivity. }
        subst v. destruct (last_cases b1) as [-> | (b & v & ->)].
        { exfalso. apply Hprev. rewrite <- Hbe by lia. rewrite <- G5, Hbp. cbn [app length]. f_equal. lia. }
        assert (Ev : v = 255).
        { rewrite <- G5, Hbp, !app_length. cbn [length]. replace (seg + Z.of_nat (length b + 1 + 1) - 2) with (seg + Z.of_nat (length b)) by lia.
          rewrite Hin by (rewrite !app_length; cbn [length]; lia). rewrite <- app_assoc, app_nth2, Nat.sub_diag by lia. reflexivity. }
        subst v. rewrite <- app_assoc in *. cbn [app] in *. apply stuffed_app in Hst. destruct Hst as [Sb Sv]. cbn [stuffed] in Sv. destruct Sv as (_ & Sv & _).
        assert (Hb : last b 0 <> 255) by (intros E; specialize (Sv E); lia).
        exists b. cbn [set_bp c a ct bp buf ctxs ok]. rewrite app_length in Hbp. cbn [length] in Hbp.
        split; [lia |]. split; [intros i Hi; rewrite Hin by (rewrite app_length; lia); apply app_nth1; exact Hi |].
        repeat (split; [assumption |]). rewrite Hl, unstuff_app. cbn [unstuff]. rewrite app_nil_r.
        replace (last b 0 =? 255) with false by (symmetry; apply Z.eqb_neq; exact Hb).
        change (bits_of 8 255 ++ bits_of (if 255 =? 255 then 7 else 8) 127) with (repeat true 15). apply prefix_ones.
      * exists bs. repeat (split; [assumption |]). rewrite Hl. rewrite <- (app_nil_r (unstuff 0 bs)) at 2. apply prefix_app.
Qed.

(** ** Decoder *)

Fixpoint raw_decode_all (n : nat) (d : mqd) : list Z * mqd :=
  match n with
  | O => ([], d)
  | S n => let (b, d) := raw_decode d in let (l, d) := raw_decode_all n d in (b :: l, d)
  end.

(** The data and the artificial marker. *)
Definition holds (m : mem) (pos : Z) (bs : list Z) : Prop :=
  (forall i, (i < length bs)%nat -> m (pos + Z.of_nat i) = nth i bs 0) /\ m (pos + Z.of_nat (length bs)) = 255 /\ m (pos + Z.of_nat (length bs) + 1) = 255.

(** After 0xFF a byte of at most 0x8F; the last byte is not 0xFF. *)
Fixpoint decodable (prev : Z) (bs : list Z) : Prop :=
  match bs with [] => prev <> 255 | x :: r => 0 <= x <= 255 /\ (prev = 255 -> x <= 143) /\ decodable x r end.

Lemma decodable_of : forall bs p, stuffed p bs -> last bs p <> 255 -> decodable p bs.
Proof.
  induction bs as [| x bs IH]; intros p Hs Hl; [exact Hl |]. cbn [stuffed decodable] in *. destruct Hs as (H1 & H2 & H3).
  split; [exact H1 |]. split; [lia |]. apply IH; [exact H3 |]. destruct bs as [| y bs]; [exact Hl |].
  intros E. apply Hl. rewrite <- E. clear. revert x y. induction bs as [| z bs IH]; intros x y; [reflexivity |]. exact (IH x z).
Qed.

Record RRel (m : mem) (pos : Z) (bs : list Z) (rest : list bool) (d : mqd) : Prop := mkRRel {
  rr_m : dbuf d = m;
  rr_ct : 0 <= dct d <= 8;
  rr_bits : (exists k, (k <= length bs)%nat /\ dbp d = pos + Z.of_nat k /\ decodable (dc d) (skipn k bs) /\
               rest = bits_of (Z.to_nat (dct d)) (dc d) ++ unstuff (dc d) (skipn k bs)) \/
            (dbp d = pos + Z.of_nat (length bs) + 1 /\ dc d = 255 /\ rest = []) }.

Lemma skipn_nth : forall (bs : list Z) k, (k < length bs)%nat -> skipn k bs = nth k bs 0 :: skipn (S k) bs.
Proof.
  induction bs as [| x bs IH]; intros k Hk; [cbn in Hk; lia |]. destruct k as [| k]; [reflexivity |]. cbn [skipn nth]. cbn [length] in Hk. apply IH. lia.
Qed.

Lemma raw_decode_sync : forall m pos bs rest d, holds m pos bs -> RRel m pos bs rest d ->
  exists rest', fst (raw_decode d) = Z.b2z (bit_at rest 0) /\ RRel m pos bs rest' (snd (raw_decode d)) /\
    (forall i, bit_at rest' i = bit_at rest (S i)) /\ dctxs (snd (raw_decode d)) = dctxs d /\ dend (snd (raw_decode d)) = dend d /\ backup (snd (raw_decode d)) = backup d.
Proof.
  intros m pos bs rest d (Hin & He1 & He2) [Rm Rct Rb].
  (* after loading a byte if needed *)
  set (next := fun ct' => mkMqd (dbuf d (dbp d)) (da d) ct' (eos d) (dbp d + 1) (dend d) (dbuf d) (dctxs d) (backup d)).
  set (d1 := if dct d =? 0 then if dc d =? 255 then if 143 <? dbuf d (dbp d) then dset d 255 (da d) 8 else next 7 else next 8 else d).
  assert (L : exists rest1, RRel m pos bs rest1 d1 /\ 1 <= dct d1 /\ (forall i, bit_at rest1 i = bit_at rest i) /\
    (dctxs d1 = dctxs d /\ dend d1 = dend d /\ backup d1 = backup d)).
  { unfold d1. destruct (Z.eqb_spec (dct d) 0) as [E0 | E0].
    2:{ exists rest. split; [constructor; assumption |]. split; [lia |]. split; [reflexivity |]. repeat split. }
    destruct Rb as [(k & Hk & Ebp & Dk & Er) | (Ebp & Edc & Er)].
    - rewrite E0 in Er. cbn [Z.to_nat bits_of app] in Er.
      destruct (Nat.eq_dec k (length bs)) as [-> | Hne].
      + (* the marker *)
        rewrite skipn_all in *. cbn [decodable unstuff] in *. destruct (Z.eqb_spec (dc d) 255); [contradiction |]. exists []. unfold next.
        split; [| split; [cbn; lia |]; split; [rewrite Er; reflexivity | repeat split]].
        constructor; cbn [dbuf dct dbp dc]; [exact Rm | lia |]. right. rewrite Rm, Ebp. split; [lia |]. split; [exact He1 | reflexivity].
      + rewrite (skipn_nth bs k) in Dk, Er by lia. cbn [decodable] in Dk. destruct Dk as (D1 & D2 & D3).
        assert (Ev : dbuf d (dbp d) = nth k bs 0) by (rewrite Rm, Ebp; apply Hin; lia). rewrite unstuff_cons in Er.
        exists rest. destruct (Z.eqb_spec (dc d) 255) as [Ec | Ec].
        * specialize (D2 Ec). rewrite Ev. destruct (Z.ltb_spec 143 (nth k bs 0)); [lia |]. unfold next. rewrite Ev.
          split; [| split; [cbn; lia |]; split; [reflexivity | repeat split]].
          constructor; cbn [dbuf dct dbp dc]; [exact Rm | lia |]. left. exists (S k). split; [lia |]. split; [lia |]. split; [exact D3 |].
          rewrite Er, Ec. reflexivity.
        * unfold next. rewrite Ev. split; [| split; [cbn; lia |]; split; [reflexivity | repeat split]].
          constructor; cbn [dbuf dct dbp dc]; [exact Rm | lia |]. left. exists (S k). split; [lia |]. split; [lia |]. split; [exact D3 |].
          rewrite Er. unfold width. destruct (Z.eqb_spec (dc d) 255); [contradiction | reflexivity].
    - rewrite Edc. cbn [Z.eqb Pos.eqb]. rewrite Rm, Ebp, He2. change (143 <? 255) with true. cbn match. exists [].
      split; [| split; [cbn; lia |]; split; [rewrite Er; reflexivity | repeat split]].
      constructor; cbn [dset dbuf dct dbp dc]; [exact Rm | lia |]. right. split; [exact Ebp |]. split; reflexivity. }
  destruct L as (rest1 & R1 & H1 & Hb1 & Hf). clear Rm Rct Rb.
  assert (Ed : raw_decode d = (Z.land (Z.shiftr (dc d1) (u32 (dct d1 - 1) mod 32)) 1, dset d1 (dc d1) (da d1) (u32 (dct d1 - 1)))) by reflexivity.
  rewrite Ed. clearbody d1. clear Ed. destruct R1 as [Rm Rct Rb]. rewrite (u32_id (dct d1 - 1)) by lia. rewrite (Z.mod_small (dct d1 - 1)) by lia.
  rewrite bit_value by lia. cbn [fst snd].
  destruct (Z.to_nat (dct d1)) as [| n] eqn:En; [lia |]. assert (Ec : dct d1 - 1 = Z.of_nat n) by lia. rewrite Ec.
  destruct Rb as [(k & Hk & Ebp & Dk & Er) | (Ebp & Edc & Er)].
  - exists (tl rest1). cbn [bits_of app] in Er. split; [| split; [| split]].
    + rewrite <- Hb1, Er. reflexivity.
    + constructor; unfold dset; cbn [dbuf dct dbp dc]; [exact Rm | lia |]. left. exists k. split; [exact Hk |]. split; [exact Ebp |]. split; [exact Dk |].
      rewrite Er, Nat2Z.id. reflexivity.
    + intros i. rewrite <- Hb1, Er. reflexivity.
    + exact Hf.
  - exists []. split; [| split; [| split]].
    + rewrite <- Hb1, Er, Edc. cbn [bit_at nth]. destruct n as [| [| [| [| [| [| [| [|]]]]]]]]; try reflexivity; lia.
    + constructor; unfold dset; cbn [dbuf dct dbp dc]; [exact Rm | lia |]. right. split; [exact Ebp |]. split; [exact Edc | reflexivity].
    + intros i. rewrite <- Hb1, Er. unfold bit_at. destruct i; reflexivity.
    + exact Hf.
Qed.

Lemma raw_decode_all_sync : forall m pos bs n rest d, holds m pos bs -> RRel m pos bs rest d ->
  fst (raw_decode_all n d) = map (fun i => Z.b2z (bit_at rest i)) (seq 0 n) /\
  dbuf (snd (raw_decode_all n d)) = m /\ dctxs (snd (raw_decode_all n d)) = dctxs d /\ dend (snd (raw_decode_all n d)) = dend d /\ backup (snd (raw_decode_all n d)) = backup d.
Proof.
  intros m pos bs. induction n as [| n IH]; intros rest d Hh Hr.
  - cbn [raw_decode_all fst snd seq map]. destruct Hr. repeat split; assumption.
  - cbn [raw_decode_all]. destruct (raw_decode_sync m pos bs rest d Hh Hr) as (rest' & E1 & R1 & Hb & F1 & F2 & F3).
    destruct (raw_decode d) as [b d1]. cbn [fst snd] in *. destruct (IH rest' d1 Hh R1) as (I1 & I2 & I3 & I4 & I5).
    destruct (raw_decode_all n d1) as [l d2]. cbn [fst snd] in *. rewrite I2, I3, I4, I5, F1, F2, F3. repeat (split; [| repeat split]).
    cbn [seq map]. rewrite E1, I1. f_equal. rewrite <- seq_shift, map_map. apply map_ext. intros i. rewrite Hb. reflexivity.
Qed.
