(** C21, C22: the MQ coder.

    A segment is a run of (context, decision) pairs between an initialisation
    and a termination. Whatever the decisions, the bytes written decode to the
    same decisions, with the same final context states, wherever the bytes are
    copied and whatever follows them; and no byte pair in the segment looks
    like a codestream marker. *)

From Coq Require Import ZArith List Lia Bool.
From Verif Require Import Ints Mem MqModel MqProofs MqSync MqEnd.
Import ListNotations.
Local Open Scope Z_scope.

(** ** Specification *)

Definition encode_all (start : Z) (l : list (Z * Z)) (s : mqc) : mqc := fold_left (fun s p => encode start (fst p) (snd p) s) l s.

Fixpoint decode_all (l : list Z) (d : mqd) : option (list Z * mqd) :=
  match l with
  | [] => Some ([], d)
  | x :: l => match decode x d with
              | None => None
              | Some (b, d) => match decode_all l d with None => None | Some (bs, d) => Some (b :: bs, d) end
              end
  end.

Definition bits (l : list (Z * Z)) : Prop := forall p, In p l -> 0 <= snd p <= 1.
Definition valid_ctxs (m : mem) : Prop := forall k, 0 <= m k < 94.

(** No two bytes of [lo, hi) form a marker (0xFF90 or above) and the last
    byte is not 0xFF. *)
Definition marker_free (m : mem) (lo hi : Z) : Prop :=
  (forall i, lo <= i -> i + 1 < hi -> m i = 255 -> m (i + 1) <= 0x8F) /\ (lo < hi -> m (hi - 1) <> 255).

(** [m'] holds at [pos] a copy of the [n] bytes of [m] at [from]. *)
Definition copied (m m' : mem) (from pos n : Z) : Prop := forall i, 0 <= i < n -> m' (pos + i) = m (from + i).

(** The encoder between two segments: everything before [bp] is final. *)
Record Ready (start : Z) (s : mqc) : Prop := mkReady {
  rd_bytes : bytes (buf s);
  rd_ctx : valid_ctxs (ctxs s);
  rd_bp : start <= bp s;
  rd_clean : marker_free (buf s) start (bp s);
  rd_prev : buf s (bp s - 1) <> 255;
  rd_ok : ok s = true }.

(** What a segment [from, bp s') must satisfy. *)
Definition segment_ok (start from : Z) (l : list (Z * Z)) (before s s' : mqc) : Prop :=
  Ready start s' /\ from <= bp s' /\ (forall i, i < from -> buf s' i = buf before i) /\ ctxs s' = ctxs (encode_all start l s) /\
  forall m pos, copied (buf s') m from pos (bp s' - from) ->
    exists d, decode_all (map fst l) (init_dec m pos (bp s' - from) (ctxs s)) = Some (map snd l, d) /\
              dctxs d = ctxs s' /\ (forall i, finish_dec d i = m i).

(** ** Proofs *)

Lemma encode_all_inv : forall start l s, Inv start (2 ^ 15) (2 ^ 16) s ->
  Inv start (2 ^ 15) (2 ^ 16) (encode_all start l s) /\ forall B, Claim B (encode_all start l s) -> Claim B s.
Proof.
  intros start l. induction l as [| p l IH]; intros s I.
  - split; [exact I | auto].
  - cbn [encode_all fold_left]. destruct (encode_inv start (fst p) (snd p) s I) as [I1 C1].
    destruct (IH _ I1) as [I2 C2]. split; [exact I2 |]. intros B Cl. apply C1, C2, Cl.
Qed.

Lemma all_sync : forall B off seg e m bk start l s d, Data B off seg e m -> Inv start (2 ^ 15) (2 ^ 16) s -> Rel B off seg e m bk s d ->
  bits l -> Claim B (encode_all start l s) ->
  exists d', decode_all (map fst l) d = Some (map snd l, d') /\ Rel B off seg e m bk (encode_all start l s) d'.
Proof.
  intros B off seg e m bk start l. induction l as [| p l IH]; intros s d HD I Re Hl Cl.
  - exists d. split; [reflexivity | exact Re].
  - cbn [encode_all fold_left map decode_all] in *. destruct (encode_inv start (fst p) (snd p) s I) as [I1 _].
    destruct (decode_sync B off seg e m bk start (fst p) (snd p) s d HD I Re) as (d1 & E1 & R1).
    + apply Hl. left. reflexivity.
    + apply (encode_all_inv start l _ I1). exact Cl.
    + destruct (IH _ d1 HD I1 R1) as (d2 & E2 & R2); [intros q Hq; apply Hl; right; exact Hq | exact Cl |].
      exists d2. rewrite E1, E2. split; [reflexivity | exact R2].
Qed.

Record Fresh (start : Z) (s : mqc) : Prop := mkFresh {
  fr_inv : Inv start (2 ^ 15) (2 ^ 16) s;
  fr_c : c s = 0;
  fr_a : a s = 2 ^ 15;
  fr_ct : ct s = 12;
  fr_cur : cur s <> 255 }.

Lemma fresh_claim : forall B start s, Fresh start s -> Claim B s -> B (bp s) = cur s.
Proof.
  intros B start s [I Hc Ha Hct Hcur] [L _ U _]. destruct L as [L | [_ L]]; [exact L |]. specialize (U O). cbn [R T] in U.
  unfold low, W in U. rewrite Hct, Hc, Ha, L in U. change (27 - 12) with 15 in U. lia.
Qed.

Lemma init_sync : forall B start s buf' pos len, Fresh start s -> Claim B s -> 0 <= len ->
  let seg := bp s + 1 in let e := seg + len in let off := pos - seg in let m := with_marker buf' (pos + len) in
  Data B off seg e m -> Rel B off seg e m (buf' (pos + len), buf' (pos + len + 1)) s (init_dec buf' pos len (ctxs s)).
Proof.
  intros B start s buf' pos len F Cl Hlen seg e off m HD. pose proof (fresh_claim B start s F Cl) as EB.
  destruct F as [I Hc Ha Hct Hcur]. pose proof HD as [Hin Hfi Hcl Hby Hle].
  assert (Eoff : e + off = pos + len) by (unfold e, off; lia).
  assert (Em : (if len =? 0 then Z.shiftl 255 16 else Z.shiftl (m pos) 16) = B seg * 2 ^ 16).
  { rewrite !Z.shiftl_mul_pow2 by lia. replace (m pos) with (B seg) by (rewrite <- (Hin seg) by lia; f_equal; unfold off; lia).
    destruct (Z.eqb_spec len 0) as [E | E]; [| reflexivity]. rewrite (Hfi seg) by lia. reflexivity. }
  assert (Es : sh B (bp s) = 8).
  { unfold sh. rewrite EB. destruct (Z.eqb_spec (cur s) 255); [contradiction | reflexivity]. }
  (* a virtual encoder seven bits earlier *)
  set (sv := mkMqc 0 (2 ^ 8) 19 (bp s) (buf s) (ctxs s) (ok s)).
  assert (Cv : Claim B sv) by (apply (claim_shift B sv s 7); try reflexivity; unfold sv; cbn [ct c a]; try lia; try assumption; rewrite ?Hc, ?Ha, ?Hct; try reflexivity).
  set (dv := mkMqd (B seg * 2 ^ 16) (2 ^ 8) 0 0 pos (pos + len) m (ctxs s) (buf' (pos + len), buf' (pos + len + 1))).
  assert (Rv : Rel B off seg e m (buf' (pos + len), buf' (pos + len + 1)) sv dv).
  { constructor; unfold dv, sv; cbn [da dctxs dct dc dbp dbuf dend backup a ctxs bp ct]; try reflexivity; try lia.
    - exists O. cbn [T R]. replace (bp s + Z.of_nat 0) with (bp s) by lia. replace (bp s + Z.of_nat 1) with seg by (unfold seg; lia). rewrite Es.
      split; [lia |]. split; [| unfold off; lia]. unfold low, cur, W. cbn [bp buf ct c]. fold (cur s). rewrite EB. change (27 - 19) with 8. change (16 - 0) with 16. ring.
    - split; [reflexivity |]. split; [symmetry; exact Eoff | reflexivity]. }
  destruct (bytein_sync B off seg e m _ sv dv HD Rv Cv) as [Rb Db]; try (unfold sv, dv; cbn [ct a dct]; lia).
  assert (ED : init_dec buf' pos len (ctxs s) = let d := bytein dv in dset d (shl (dc d) 7) 0x8000 (u32 (dct d - 7))).
  { unfold init_dec. fold m. rewrite Em. unfold dv, bytein. cbn [dbuf dbp dc da dct eos dend dctxs backup].
    destruct (m pos =? 255); [destruct (143 <? m (pos + 1)) |]; reflexivity. }
  rewrite ED. cbn zeta. set (d := bytein dv) in *. clearbody d.
  pose proof (rel_bounds _ _ _ _ _ _ _ _ Rb Cv ltac:(unfold sv; cbn [ct]; lia)) as Bd. unfold sv in Bd. cbn [a] in Bd.
  destruct Rb as [Ra Rx (j & ET & EDc & EBp) Rc Rbp RM].
  constructor; unfold dset; cbn [da dctxs dct dc dbp dbuf dend backup].
  - rewrite Ha. reflexivity.
  - exact Rx.
  - exists j. rewrite (u32_id (dct d - 7)) by lia. unfold sv in ET, EDc, EBp. cbn [bp ct] in ET, EDc, EBp.
    split; [lia |]. split; [| exact EBp]. rewrite shl_id by lia. rewrite EDc.
    unfold low, cur, W. cbn [bp buf ct c]. rewrite Hc, Hct. change (27 - 12) with (27 - 19 + 7).
    rewrite (Z.pow_add_r 2 (27 - 19) 7) by lia. replace (16 - (dct d - 7)) with (16 - dct d + 7) by lia. rewrite (Z.pow_add_r 2 (16 - dct d) 7) by lia. ring.
  - rewrite (u32_id (dct d - 7)) by lia. lia.
  - unfold seg. lia.
  - exact RM.
Qed.

Lemma segment : forall start l s s', Fresh start s -> bits l -> Ended start (encode_all start l s) s' -> segment_ok start (bp s + 1) l s s s'.
Proof.
  intros start l s s' F Hl [EC Eby Ecl Ela Ebp Ectx Eok]. pose proof (fr_inv _ _ F) as I.
  destruct (encode_all_inv start l s I) as [I1 C1].
  set (B := fun i => if i <? bp s' then buf s' i else 255).
  assert (B1 : forall i, i < bp s' -> B i = buf s' i) by (intros i Hi; unfold B; destruct (Z.ltb_spec i (bp s')); [reflexivity | lia]).
  assert (B2 : forall i, bp s' <= i -> B i = 255) by (intros i Hi; unfold B; destruct (Z.ltb_spec i (bp s')); [lia | reflexivity]).
  pose proof (EC B B1 B2) as Cl1. pose proof (C1 B Cl1) as Cl0. pose proof (fresh_claim B start s F Cl0) as EB.
  pose proof (fr_cur _ _ F) as Hcur. assert (Hs : start - 1 <= bp s) by (destruct I; assumption).
  assert (Hle : bp s + 1 <= bp s').
  { destruct (Z_lt_ge_dec (bp s) (bp s')) as [L | G]; [lia |]. rewrite B2 in EB by lia. congruence. }
  assert (Fr : forall i, i < bp s + 1 -> buf s' i = buf s i).
  { intros i Hi. rewrite <- B1 by lia. destruct (Z.eq_dec i (bp s)) as [-> | Hne]; [exact EB |]. destruct Cl0 as [_ P _ _]. apply P. lia. }
  assert (Lst : buf s' (bp s' - 1) <> 255).
  { destruct (Z_lt_ge_dec start (bp s')) as [L | G]; [apply Ela, L |]. assert (E : bp s' - 1 = bp s) by lia. rewrite E, Fr by lia. exact Hcur. }
  split; [| split; [exact Hle |]; split; [exact Fr |]; split; [exact Ectx |]].
  - constructor; try assumption.
    + unfold valid_ctxs. rewrite Ectx. destruct I1; assumption.
    + lia.
    + split; [exact Ecl | intros _; exact Lst].
  - intros m pos Hm. set (len := bp s' - (bp s + 1)) in *. set (seg := bp s + 1) in *.
    assert (HD : Data B (pos - seg) seg (seg + len) (with_marker m (pos + len))).
    { assert (Ee : seg + len = bp s') by (unfold len; lia). constructor.
      - intros i Hi1 Hi2. unfold with_marker. destruct (Z_lt_ge_dec i (bp s')) as [L | G].
        + rewrite !upd_other by lia. rewrite B1 by lia. replace (i + (pos - seg)) with (pos + (i - seg)) by lia. rewrite Hm by lia. f_equal. lia.
        + rewrite B2 by lia. destruct (Z.eq_dec i (bp s')) as [E | E].
          * rewrite upd_other by lia. replace (i + (pos - seg)) with (pos + len) by lia. apply upd_same.
          * replace (i + (pos - seg)) with (pos + len + 1) by lia. apply upd_same.
      - intros i Hi. apply B2. lia.
      - intros i Hi1 Hi2 E. rewrite B1 in E by lia. destruct (Z.eq_dec (i + 1) (bp s')) as [E1 | E1].
        + exfalso. apply Lst. replace (bp s' - 1) with i by lia. exact E.
        + rewrite B1 by lia. apply Ecl; [unfold seg in Hi1; lia | lia | exact E].
      - intros i. unfold B. destruct (i <? bp s'); [apply Eby | lia].
      - unfold len. lia. }
    pose proof (init_sync B start s m pos len F Cl0 ltac:(unfold len; lia) HD) as Re. cbn zeta in Re. fold seg in Re.
    destruct (all_sync _ _ _ _ _ _ start l s _ HD I Re Hl Cl1) as (d & Ed & Rd).
    exists d. split; [exact Ed |]. split; [rewrite (r_x _ _ _ _ _ _ _ _ Rd); symmetry; exact Ectx |].
    destruct (r_m _ _ _ _ _ _ _ _ Rd) as (M1 & M2 & M3). intros i. unfold finish_dec. rewrite M1, M2, M3. cbn [fst snd].
    replace (seg + len + (pos - seg)) with (pos + len) by lia. unfold with_marker, upd.
    destruct (Z.eqb_spec i (pos + len + 1)) as [-> | N1]; [reflexivity |]. destruct (Z.eqb_spec i (pos + len)) as [-> | N2]; reflexivity.
Qed.

Lemma init_fresh : forall start m cx, bytes m -> m (start - 1) <> 255 -> valid_ctxs cx -> Fresh start (init_enc start m cx).
Proof.
  intros start m cx Hb Hm Hx. assert (E : (m (start - 1) =? 255) = false) by (apply Z.eqb_neq; exact Hm).
  unfold init_enc, cur. cbn [check c a ct bp buf ctxs ok]. rewrite E. cbn [negb andb].
  constructor; [constructor |..]; cbn [check c a ct bp buf ctxs ok]; try assumption; try lia; try reflexivity.
Qed.

Lemma restart_fresh : forall start s, Ready start s -> Fresh start (restart_init_enc start s).
Proof.
  intros start s [Hb Hx Hbp [Hcl _] Hpr Hok]. assert (E : (buf s (bp s - 1) =? 255) = false) by (apply Z.eqb_neq; exact Hpr).
  assert (E1 : (start - 1 <=? bp s - 1) = true) by (apply Z.leb_le; lia).
  unfold restart_init_enc, cur. cbn [check c a ct bp buf ctxs ok]. rewrite E. unfold check. cbn [c a ct bp buf ctxs ok]. rewrite E1, Hok. cbn [negb andb].
  constructor; [constructor |..]; cbn [c a ct bp buf ctxs ok]; try assumption; try lia; try reflexivity.
  - intros i H1 H2. apply Hcl; lia.
  - intros H1 H2. unfold low, W, cur. cbn [c ct bp buf a]. specialize (Hcl (bp s - 1 - 1) H1 ltac:(lia) H2).
    replace (bp s - 1 - 1 + 1) with (bp s - 1) in Hcl by lia. change (27 - 12) with 15. lia.
Qed.

(** ** C21: round trip *)

(** First segment of a code-block, ended by flush. *)
Theorem c21_flush : forall start m cx l, bytes m -> m (start - 1) <> 255 -> valid_ctxs cx -> bits l ->
  let s := init_enc start m cx in
  segment_ok start start l s s (flush start (encode_all start l s)).
Proof.
  intros start m cx l Hb Hm Hx Hl s. pose proof (init_fresh start m cx Hb Hm Hx) as F.
  replace start with (bp s + 1) at 2 by (unfold s, init_enc; cbn [check bp]; lia).
  apply segment; [exact F | exact Hl |]. apply flush_end. apply encode_all_inv. destruct F; assumption.
Qed.

(** The same with the predictable termination. *)
Theorem c21_erterm : forall start m cx l, bytes m -> m (start - 1) <> 255 -> valid_ctxs cx -> bits l ->
  let s := init_enc start m cx in
  segment_ok start start l s s (erterm_enc start (encode_all start l s)).
Proof.
  intros start m cx l Hb Hm Hx Hl s. pose proof (init_fresh start m cx Hb Hm Hx) as F.
  replace start with (bp s + 1) at 2 by (unfold s, init_enc; cbn [check bp]; lia).
  apply segment; [exact F | exact Hl |]. apply erterm_end. apply encode_all_inv. destruct F; assumption.
Qed.

(** A later segment: the coder restarts after the last final byte, and the
    earlier bytes stay as they are. *)
Theorem c21_restart : forall start s l (erterm : bool), Ready start s -> bits l ->
  let r := restart_init_enc start s in
  let x := encode_all start l r in
  segment_ok start (bp s) l s r (if erterm then erterm_enc start x else flush start x).
Proof.
  intros start s l erterm Hr Hl r x. pose proof (restart_fresh start s Hr) as F.
  assert (Eb : bp r = bp s - 1).
  { unfold r, restart_init_enc. match goal with |- context [if ?b then _ else _] => destruct b end; reflexivity. }
  assert (Ef : buf r = buf s).
  { unfold r, restart_init_enc. match goal with |- context [if ?b then _ else _] => destruct b end; reflexivity. }
  assert (I : Inv start (2 ^ 15) (2 ^ 16) x) by (apply encode_all_inv; destruct F; assumption).
  assert (G : segment_ok start (bp r + 1) l r r (if erterm then erterm_enc start x else flush start x)).
  { apply segment; [exact F | exact Hl |]. destruct erterm; [apply erterm_end | apply flush_end]; exact I. }
  rewrite Eb in G. replace (bp s - 1 + 1) with (bp s) in G by lia.
  destruct G as (G1 & G2 & G3 & G4 & G5). split; [exact G1 |]. split; [exact G2 |]. split; [| split; [exact G4 | exact G5]].
  intros i Hi. rewrite G3 by exact Hi. rewrite Ef. reflexivity.
Qed.

(** Resetting the context states between segments is allowed. *)
Theorem c21_reset : forall start s, Ready start s -> Ready start (set_ctxs s reset_ctxs).
Proof.
  intros start s [Hb Hx Hbp Hcl Hpr Hok]. constructor; try assumption. cbn [set_ctxs ctxs]. intros k. unfold reset_ctxs, setstate, upd.
  destruct (k =? 0); [cbn; lia |]. destruct (k =? 17); [cbn; lia |]. destruct (k =? 18); cbn; lia.
Qed.

(** ** C22: the bytes *)

Theorem c22_marker_free : forall start m cx l (erterm : bool), bytes m -> m (start - 1) <> 255 -> valid_ctxs cx -> bits l ->
  let x := encode_all start l (init_enc start m cx) in
  let s := if erterm then erterm_enc start x else flush start x in
  marker_free (buf s) start (bp s) /\ (forall i, 0 <= buf s i <= 255) /\ ok s = true /\ 0 <= numbytes start s.
Proof.
  intros start m cx l erterm Hb Hm Hx Hl x s. unfold numbytes.
  assert (H : Ready start s) by (unfold s; destruct erterm; [apply (c21_erterm start m cx l) | apply (c21_flush start m cx l)]; assumption).
  destruct H as [H1 H2 H3 H4 H5 H6]. split; [exact H4 |]. split; [exact H1 |]. split; [exact H6 | lia].
Qed.

(** Over the whole code-block, however many segments it has. *)
Theorem c22_restart : forall start s l (erterm : bool), Ready start s -> bits l ->
  let x := encode_all start l (restart_init_enc start s) in
  let s' := if erterm then erterm_enc start x else flush start x in
  marker_free (buf s') start (bp s') /\ bp s <= bp s'.
Proof.
  intros start s l erterm Hr Hl x s'. destruct (c21_restart start s l erterm Hr Hl) as (G1 & G2 & _). destruct G1. split; assumption.
Qed.

(** ** Examples *)

Definition sample : list (Z * Z) := [(0, 1); (3, 0); (0, 1); (18, 1); (17, 0); (0, 0); (5, 1); (0, 1); (18, 0); (2, 1)].
Definition long_sample : list (Z * Z) := flat_map (fun _ => sample) (seq 0 30).
Definition first_bytes (s : mqc) (start n : Z) : list Z := map (fun i => buf s (start + Z.of_nat i)) (seq 0 (Z.to_nat n)).

Example c21_run :
  let s := flush 0 (encode_all 0 long_sample (init_enc 0 (fun _ => 0) reset_ctxs)) in
  option_map fst (decode_all (map fst long_sample) (init_dec (buf s) 0 (numbytes 0 s) reset_ctxs)) = Some (map snd long_sample).
Proof. vm_compute. reflexivity. Qed.

Example c21_run_erterm :
  let s := erterm_enc 0 (encode_all 0 long_sample (init_enc 0 (fun _ => 0) reset_ctxs)) in
  option_map fst (decode_all (map fst long_sample) (init_dec (buf s) 0 (numbytes 0 s) reset_ctxs)) = Some (map snd long_sample).
Proof. vm_compute. reflexivity. Qed.

Example c22_bytes : let s := flush 0 (encode_all 0 sample (init_enc 0 (fun _ => 0) reset_ctxs)) in
  first_bytes s 0 (numbytes 0 s) = [0; 115; 127].
Proof. vm_compute. reflexivity. Qed.

(** The test sequence of ITU-T T.88, H.2 (one context, state 0). *)
Definition byte_bits (b : Z) : list (Z * Z) := map (fun k => (0, Z.land (Z.shiftr b (7 - Z.of_nat k)) 1)) (seq 0 8).
Definition h2_input : list Z :=
  [0x00; 0x02; 0x00; 0x51; 0x00; 0x00; 0x00; 0xC0; 0x03; 0x52; 0x87; 0x2A; 0xAA; 0xAA; 0xAA; 0xAA;
   0x82; 0xC0; 0x20; 0x00; 0xFC; 0xD7; 0x9E; 0xF6; 0xBF; 0x7F; 0xED; 0x90; 0x4F; 0x46; 0xA3; 0xBF].
Example c21_t88_h2 :
  let s := flush 0 (encode_all 0 (flat_map byte_bits h2_input) (init_enc 0 (fun _ => 0) (fun _ => 0))) in
  first_bytes s 0 (numbytes 0 s) =
  [0x84; 0xC7; 0x3B; 0xFC; 0xE1; 0xA1; 0x43; 0x04; 0x02; 0x20; 0x00; 0x00; 0x41; 0x0D; 0xBB; 0x86;
   0xF4; 0x31; 0x7F; 0xFF; 0x88; 0xFF; 0x37; 0x47; 0x1A; 0xDB; 0x6A; 0xDF].
Proof. vm_compute. reflexivity. Qed.

Print Assumptions c21_flush.
Print Assumptions c21_erterm.
Print Assumptions c21_restart.
Print Assumptions c21_reset.
Print Assumptions c22_marker_free.
Print Assumptions c22_restart.
