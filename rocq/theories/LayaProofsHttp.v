(** Identifier decoding, URI decoding, routing and path containment. *)

From Coq Require Import ZArith NArith List String Ascii Bool Lia.
From Verif Require Import LayaModel LayaSpec LayaProofsStr LayaProofsF32 LayaProofsParse LayaProofsIiif.
Import ListNotations.
Local Open Scope string_scope.

(** ** Percent decoding *)

Lemma hex_digit_spec : forall a, hex_digit a = hex_value a.
Proof.
  intros [b0 b1 b2 b3 b4 b5 b6 b7].
  destruct b0, b1, b2, b3, b4, b5, b6, b7; reflexivity.
Qed.

Lemma hex_value_range : forall a d, hex_value a = Some d -> (0 <= d < 16)%Z.
Proof.
  intros [b0 b1 b2 b3 b4 b5 b6 b7] d.
  destruct b0, b1, b2, b3, b4, b5, b6, b7; cbv; intros H; inversion H; subst; split; congruence.
Qed.

Lemma code_byte : forall z, (0 <= z < 256)%Z -> code (byte z) = z.
Proof.
  intros z H. unfold code, byte. rewrite N_ascii_embedding by lia. lia.
Qed.

Lemma byte_code : forall a, byte (code a) = a.
Proof.
  intros a. unfold byte, code. rewrite N2Z.id. apply ascii_N_embedding.
Qed.

Lemma code_range : forall a, (0 <= code a < 256)%Z.
Proof.
  intros [b0 b1 b2 b3 b4 b5 b6 b7].
  destruct b0, b1, b2, b3, b4, b5, b6, b7; cbv; split; congruence.
Qed.

Lemma string_ind_len : forall P : string -> Prop,
  (forall s, (forall t, (String.length t < String.length s)%nat -> P t) -> P s) -> forall s, P s.
Proof.
  intros P H s. remember (String.length s) as n eqn:E.
  revert s E. induction n as [n IH] using (well_founded_induction lt_wf).
  intros s ->. apply H. intros t Ht. eapply IH; [exact Ht | reflexivity].
Qed.

Lemma decode_binary_pct : forall r, decode_binary (String "%" r) =
  match r with
  | String h1 (String h2 r2) =>
      match hex_value h1, hex_value h2 with
      | Some d1, Some d2 => String (byte (16 * d1 + d2)) (decode_binary r2)
      | _, _ => String "%" (decode_binary r)
      end
  | _ => String "%" (decode_binary r)
  end.
Proof.
  intros r. destruct r as [| h1 [| h2 r2]].
  - reflexivity.
  - cbn [decode_binary]. rewrite Ascii.eqb_refl.
    destruct (Ascii.eqb_spec h1 "%"); [subst |]; reflexivity.
  - rewrite <- !hex_digit_spec.
    change (decode_binary (String "%" (String h1 (String h2 r2)))) with
      (match hex_digit h1 with
            | Some d1 =>
                match hex_digit h2 with
                | Some d2 => String (byte (16 * d1 + d2)) (decode_binary r2)
                | None => String "%" (String h1 (decode_binary (String h2 r2)))
                end
            | None => String "%" (decode_binary (String h1 (String h2 r2)))
            end).
    destruct (hex_digit h1) eqn:E1; [| reflexivity].
    destruct (hex_digit h2) eqn:E2; [reflexivity |].
    assert (Hh : h1 <> "%"%char) by (intros ->; discriminate E1).
    assert (Hd : decode_binary (String h1 (String h2 r2)) = String h1 (decode_binary (String h2 r2))).
    { remember (String h2 r2) as t. cbn [decode_binary].
      destruct (Ascii.eqb_spec h1 "%"); [contradiction | reflexivity]. }
    rewrite Hd. reflexivity.
Qed.

Lemma decode_binary_lit : forall a r, a <> "%"%char -> decode_binary (String a r) = String a (decode_binary r).
Proof.
  intros a r H. cbn [decode_binary]. destruct (Ascii.eqb_spec a "%"); [contradiction | reflexivity].
Qed.

Lemma decode_binary_sound : forall e s, pct_decodes e s -> decode_binary e = s.
Proof.
  induction 1.
  - reflexivity.
  - rewrite decode_binary_lit by assumption. congruence.
  - rewrite decode_binary_pct, H, H0, <- H1. fold (code a). rewrite byte_code. congruence.
  - rewrite decode_binary_pct. destruct e as [| h1 [| h2 r2]]; try congruence.
    unfold hex_pair in H. destruct (hex_value h1), (hex_value h2); try congruence.
    exfalso. apply H. split; discriminate.
Qed.

Lemma decode_binary_complete : forall e, pct_decodes e (decode_binary e).
Proof.
  induction e as [e IH] using string_ind_len.
  destruct e as [| a r]; [constructor |].
  destruct (Ascii.ascii_dec a "%") as [-> | Hne].
  2: { rewrite decode_binary_lit by assumption. constructor; [assumption |]. apply IH. simpl; lia. }
  rewrite decode_binary_pct. destruct r as [| h1 [| h2 r2]].
  - apply dec_stray; [exact (fun H => H) |]. apply IH. simpl; lia.
  - apply dec_stray; [exact (fun H => H) |]. apply IH. simpl; lia.
  - destruct (hex_value h1) as [d1 |] eqn:E1; [destruct (hex_value h2) as [d2 |] eqn:E2 |].
    + pose proof (hex_value_range _ _ E1). pose proof (hex_value_range _ _ E2).
      eapply dec_escape; [exact E1 | exact E2 | |].
      * fold (code (byte (16 * d1 + d2))). apply code_byte. lia.
      * apply IH. simpl; lia.
    + apply dec_stray; [| apply IH; simpl; lia]. intros [_ H]. congruence.
    + apply dec_stray; [| apply IH; simpl; lia]. intros [H _]. congruence.
Qed.

Lemma decode_binary_spec : forall e s, decode_binary e = s <-> pct_decodes e s.
Proof.
  intros e s. split; [intros <-; apply decode_binary_complete | apply decode_binary_sound].
Qed.

Lemma pct_encodes_decodes : forall e s, pct_encodes e s -> pct_decodes e s /\ free_of "/" e.
Proof.
  induction 1.
  - split; [constructor | apply free_of_nil].
  - destruct IHpct_encodes. split; [constructor; assumption |].
    apply free_of_cons. split; assumption.
  - destruct IHpct_encodes. split; [econstructor; eassumption |].
    apply free_of_cons. split; [discriminate |].
    apply free_of_cons. split; [intros ->; discriminate H |].
    apply free_of_cons. split; [intros ->; discriminate H0 | assumption].
Qed.

(** ** UTF-8 *)

Lemma chr_byte : forall z, chr z = byte z.
Proof. reflexivity. Qed.

Lemma in_range_spec : forall lo hi a, in_range lo hi a = true <-> (lo <= code a <= hi)%Z.
Proof. intros. unfold in_range. rewrite andb_true_iff, !Z.leb_le. reflexivity. Qed.

Lemma in_range_byte : forall lo hi z, (0 <= z < 256)%Z ->
  in_range lo hi (byte z) = ((lo <=? z) && (z <=? hi))%Z.
Proof. intros. unfold in_range. rewrite code_byte by assumption. reflexivity. Qed.

Ltac Zify.zify_post_hook ::= Z.div_mod_to_equations.

Ltac decide_ranges :=
  repeat match goal with
  | |- context [Z.leb ?a ?b] =>
      first [ replace (Z.leb a b) with true by (symmetry; apply Z.leb_le; lia)
            | replace (Z.leb a b) with false by (symmetry; apply Z.leb_gt; lia) ]
  end.

Lemma utf8_valid_app1 : forall n r, scalar_value n ->
  utf8_valid (utf8_of_scalar n ++ r) = utf8_valid r.
Proof.
  intros n r H. unfold scalar_value in H. unfold utf8_of_scalar. rewrite !chr_byte.
  destruct (Z.ltb_spec n 128).
  - cbn [append utf8_valid]. rewrite in_range_byte by lia. decide_ranges. reflexivity.
  - destruct (Z.ltb_spec n 2048).
    + cbn [append utf8_valid].
      rewrite !in_range_byte by lia. decide_ranges. reflexivity.
    + destruct (Z.ltb_spec n 65536).
      * assert (Ha : (224 <= 224 + n / 4096 <= 239)%Z) by lia.
        assert (Hb : (128 <= 128 + n / 64 mod 64 <= 191)%Z) by lia.
        assert (Hc : (128 <= 128 + n mod 64 <= 191)%Z) by lia.
        assert (Hlo : (n / 4096 = 0 -> 160 <= 128 + n / 64 mod 64)%Z) by lia.
        assert (Hhi : (n / 4096 = 13 -> 128 + n / 64 mod 64 <= 159)%Z) by lia.
        set (A := (n / 4096)%Z) in *. set (B := (128 + n / 64 mod 64)%Z) in *.
        set (C := (128 + n mod 64)%Z) in *. clearbody A B C.
        cbn [append utf8_valid].
        rewrite !in_range_byte by lia.
        replace ((0 <=? 224 + A) && (224 + A <=? 127))%Z with false
          by (symmetry; apply andb_false_iff; right; apply Z.leb_gt; lia).
        replace ((194 <=? 224 + A) && (224 + A <=? 223))%Z with false
          by (symmetry; apply andb_false_iff; right; apply Z.leb_gt; lia).
        cbn [andb].
        match goal with |- (if ?c then _ else _) = _ => replace c with true; [reflexivity |] end.
        symmetry. rewrite !andb_true_iff, !orb_true_iff, !andb_true_iff, !Z.leb_le. lia.
      * assert (Ha : (240 <= 240 + n / 262144 <= 244)%Z) by lia.
        assert (Hb : (128 <= 128 + n / 4096 mod 64 <= 191)%Z) by lia.
        assert (Hb2 : (128 <= 128 + n / 64 mod 64 <= 191)%Z) by lia.
        assert (Hc : (128 <= 128 + n mod 64 <= 191)%Z) by lia.
        assert (Hlo : (n / 262144 = 0 -> 144 <= 128 + n / 4096 mod 64)%Z) by lia.
        assert (Hhi : (n / 262144 = 4 -> 128 + n / 4096 mod 64 <= 143)%Z) by lia.
        set (A := (n / 262144)%Z) in *. set (B := (128 + n / 4096 mod 64)%Z) in *.
        set (C := (128 + n / 64 mod 64)%Z) in *. set (D := (128 + n mod 64)%Z) in *.
        clearbody A B C D.
        cbn [append utf8_valid].
        rewrite !in_range_byte by lia.
        replace ((0 <=? 240 + A) && (240 + A <=? 127))%Z with false
          by (symmetry; apply andb_false_iff; right; apply Z.leb_gt; lia).
        replace ((194 <=? 240 + A) && (240 + A <=? 223))%Z with false
          by (symmetry; apply andb_false_iff; right; apply Z.leb_gt; lia).
        cbn [andb].
        match goal with |- (if ?c then _ else _) = _ => replace c with false end.
        2: { symmetry. apply andb_false_iff. left.
             rewrite !orb_false_iff, !andb_false_iff, !Z.leb_gt. lia. }
        match goal with |- (if ?c then _ else _) = _ => replace c with true; [reflexivity |] end.
        symmetry. rewrite !andb_true_iff, !orb_true_iff, !andb_true_iff, !Z.leb_le. lia.
Qed.

Lemma byte_eq : forall a z, code a = z -> a = chr z.
Proof. intros a z <-. symmetry. apply byte_code. Qed.

Lemma utf8_valid_text : forall s, utf8_valid s = true -> utf8_text s.
Proof.
  induction s as [s IH] using string_ind_len. intros H.
  destruct s as [| a r]; [exists []; split; [constructor | reflexivity] |].
  assert (Hcons : forall n t, (String.length t < String.length (String a r))%nat ->
     utf8_valid t = true -> scalar_value n -> String a r = utf8_of_scalar n ++ t ->
     utf8_text (String a r)).
  { intros n t Hl Hv Hn E. destruct (IH t Hl Hv) as (l & Hf & ->).
    exists (n :: l). split; [constructor; assumption | exact E]. }
  pose proof (code_range a) as Ra.
  cbn [utf8_valid] in H.
  destruct (in_range 0 127 a) eqn:E0.
  { apply in_range_spec in E0. apply (Hcons (code a) r); [simpl; lia | assumption | unfold scalar_value; lia |].
    unfold utf8_of_scalar. destruct (Z.ltb_spec (code a) 128); [| lia].
    rewrite chr_byte, byte_code. reflexivity. }
  destruct r as [| b r]; [discriminate |].
  pose proof (code_range b) as Rb.
  destruct (in_range 194 223 a && in_range 128 191 b) eqn:E1.
  { apply andb_true_iff in E1. rewrite !in_range_spec in E1.
    apply (Hcons ((code a - 192) * 64 + (code b - 128))%Z r);
      [simpl; lia | assumption | unfold scalar_value; lia |].
    unfold utf8_of_scalar. set (n := ((code a - 192) * 64 + (code b - 128))%Z).
    destruct (Z.ltb_spec n 128); [lia |]. destruct (Z.ltb_spec n 2048); [| lia].
    cbn [append]. rewrite <- (byte_eq a) by lia. rewrite <- (byte_eq b) by lia. reflexivity. }
  destruct r as [| c r]; [discriminate |].
  pose proof (code_range c) as Rc.
  match type of H with (if ?x then _ else _) = _ => destruct x eqn:E2 end.
  { rewrite !andb_true_iff, !orb_true_iff, !andb_true_iff, !in_range_spec in E2.
    apply (Hcons ((code a - 224) * 4096 + (code b - 128) * 64 + (code c - 128))%Z r);
      [simpl; lia | assumption | unfold scalar_value; lia |].
    unfold utf8_of_scalar. set (n := ((code a - 224) * 4096 + (code b - 128) * 64 + (code c - 128))%Z).
    destruct (Z.ltb_spec n 128); [lia |]. destruct (Z.ltb_spec n 2048); [lia |].
    destruct (Z.ltb_spec n 65536); [| lia].
    cbn [append]. rewrite <- (byte_eq a) by lia. rewrite <- (byte_eq b) by lia.
    rewrite <- (byte_eq c) by lia. reflexivity. }
  destruct r as [| d r]; [discriminate |].
  pose proof (code_range d) as Rd.
  match type of H with (if ?x then _ else _) = _ => destruct x eqn:E3 end; [| discriminate].
  rewrite !andb_true_iff, !orb_true_iff, !andb_true_iff, !in_range_spec in E3.
  apply (Hcons ((code a - 240) * 262144 + (code b - 128) * 4096 + (code c - 128) * 64 + (code d - 128))%Z r);
    [simpl; lia | assumption | unfold scalar_value; lia |].
  unfold utf8_of_scalar.
  set (n := ((code a - 240) * 262144 + (code b - 128) * 4096 + (code c - 128) * 64 + (code d - 128))%Z).
  destruct (Z.ltb_spec n 128); [lia |]. destruct (Z.ltb_spec n 2048); [lia |].
  destruct (Z.ltb_spec n 65536); [lia |].
  cbn [append]. rewrite <- (byte_eq a) by lia. rewrite <- (byte_eq b) by lia.
  rewrite <- (byte_eq c) by lia. rewrite <- (byte_eq d) by lia. reflexivity.
Qed.

Lemma utf8_valid_spec : forall s, utf8_valid s = true <-> utf8_text s.
Proof.
  intros s. split; [apply utf8_valid_text |].
  intros (l & Hf & ->). induction l as [| n l IH]; [reflexivity |].
  inversion Hf; subst. cbn [utf8_of_scalars]. rewrite utf8_valid_app1 by assumption. auto.
Qed.

Lemma url_decode_spec : forall e s, url_decode e = Some s <-> pct_decodes e s /\ utf8_text s.
Proof.
  intros e s. unfold url_decode. rewrite <- utf8_valid_spec, <- decode_binary_spec.
  destruct (utf8_valid (decode_binary e)) eqn:E.
  - split; [intros H; inversion H; subst; auto | intros [-> _]; reflexivity].
  - split; [discriminate |]. intros [<- H]. congruence.
Qed.

Lemma url_decode_none : forall e, url_decode e = None <-> forall s, pct_decodes e s -> ~ utf8_text s.
Proof.
  intros e. split.
  - intros H s Hd Hu. assert (url_decode e = Some s) by (apply url_decode_spec; auto). congruence.
  - intros H. destruct (url_decode e) as [s |] eqn:E; [| reflexivity].
    apply url_decode_spec in E. destruct E as [E1 E2]. exfalso. exact (H s E1 E2).
Qed.

(** ** URI decoding *)

Section Uri.
Variable show : f32 -> string.

Lemma decode_segments_ok : forall segs r,
  decode_segments show segs = Ok r <->
  exists ident reg sz rot qf more,
    segs = ident :: reg :: sz :: rot :: qf :: more /\
    qf = quality_name (req_quality r) ++ "." ++ format_name (req_format r) /\
    pct_decodes ident (identifier r) /\ utf8_text (identifier r) /\
    region_text reg (req_region r) /\ size_text sz (req_size r) /\ rotation_text rot (req_rotation r).
Proof.
  intros segs r. split.
  - unfold decode_segments.
    destruct segs as [| ident segs]; cbn [opt_next]; [discriminate |].
    destruct (url_decode ident) as [i |] eqn:E1; [| discriminate].
    destruct segs as [| reg segs]; cbn [opt_next]; [discriminate |].
    destruct (parse_region show reg) as [rg | e] eqn:E2; [| discriminate].
    destruct segs as [| sz segs]; cbn [opt_next]; [discriminate |].
    destruct (parse_size sz) as [z | e] eqn:E3; [| discriminate].
    destruct segs as [| rot segs]; cbn [opt_next]; [discriminate |].
    destruct (parse_rotation rot) as [rt | e] eqn:E4; [| discriminate].
    destruct segs as [| qf segs]; cbn [opt_next]; [discriminate |].
    destruct (split_once "." qf) as [[q f] |] eqn:E5; [| discriminate].
    destruct (parse_quality q) as [qq | e] eqn:E6; [| discriminate].
    destruct (parse_format f) as [ff | e] eqn:E7; [| discriminate].
    intros H; inversion H; subst; clear H. cbn [identifier req_region req_size req_rotation req_quality req_format].
    exists ident, reg, sz, rot, qf, segs. split; [reflexivity |].
    apply url_decode_spec in E1. apply parse_region_ok in E2. apply parse_size_ok in E3.
    apply parse_rotation_ok in E4. apply split_once_some in E5. apply parse_quality_ok in E6.
    apply parse_format_ok in E7. destruct E5 as [-> _]. subst q f. intuition.
  - intros (ident & reg & sz & rot & qf & more & -> & -> & Hd & Hu & Hr & Hs & Hro).
    unfold decode_segments. cbn [opt_next].
    rewrite (proj2 (url_decode_spec ident _) (conj Hd Hu)).
    rewrite (proj2 (parse_region_ok show _ _) Hr), (proj2 (parse_size_ok _ _) Hs),
      (proj2 (parse_rotation_ok _ _) Hro).
    assert (Hsp : split_once "." (quality_name (req_quality r) ++ "." ++ format_name (req_format r)) =
      Some (quality_name (req_quality r), format_name (req_format r))).
    { apply split_once_some. split; [reflexivity |]. intros Hin.
      destruct (req_quality r); cbv in Hin; intuition discriminate. }
    rewrite Hsp, (proj2 (parse_quality_ok _ _) eq_refl), (proj2 (parse_format_ok _ _) eq_refl).
    destruct r; reflexivity.
Qed.

Lemma pct_slash_free : free_of "/" "pct:".
Proof. cbv. intuition discriminate. Qed.
Lemma comma_slash_free : free_of "/" ",".
Proof. cbv. intuition discriminate. Qed.
Lemma region_slash_free : forall s r, region_text s r -> free_of "/" s.
Proof.
  intros s r H. destruct r; cbn [region_text] in H.
  - subst. cbv. intuition discriminate.
  - subst. cbv. intuition discriminate.
  - destruct H as (a & b & c & d & -> & Ha & Hb & Hc & Hd & _).
    rewrite !free_of_app. repeat split; try (apply comma_slash_free).
    all: eapply u32_literal_free; [eassumption | discriminate | reflexivity].
  - destruct H as (a & b & c & d & -> & Ha & Hb & Hc & Hd & _).
    rewrite !free_of_app. repeat split; try (apply pct_slash_free); try (apply comma_slash_free).
    all: eapply f32_literal_free; [eassumption | exact slash_not_float].
Qed.

Lemma dim_slash_free : forall s o, optional_dimension_text s o -> free_of "/" s.
Proof.
  intros s [n |] H; cbn [optional_dimension_text] in H; [| subst; apply free_of_nil].
  destruct H as [H _]. eapply u32_literal_free; [exact H | discriminate | reflexivity].
Qed.

Lemma scale_slash_free : forall up s z, scale_text up s z -> free_of "/" s.
Proof.
  intros up s z H. destruct z as [| f | w h | w h]; cbn [scale_text] in H.
  - subst. cbv. intuition discriminate.
  - destruct H as (t & -> & Ht & _). apply free_of_app. split; [cbv; intuition discriminate |].
    eapply f32_literal_free; [exact Ht | exact slash_not_float].
  - destruct H as (sw & sh & -> & _ & Hw & Hh).
    apply free_of_app; split; [eapply dim_slash_free; eassumption |].
    apply free_of_app; split; [cbv; intuition discriminate | eapply dim_slash_free; eassumption].
  - destruct H as (sw & sh & -> & Hw & Hh).
    apply free_of_app; split; [cbv; intuition discriminate |].
    apply free_of_app; split; [exact (dim_slash_free sw (Some w) Hw) |].
    apply free_of_app; split; [cbv; intuition discriminate | exact (dim_slash_free sh (Some h) Hh)].
Qed.

Lemma size_slash_free : forall s z, size_text s z -> free_of "/" s.
Proof.
  intros s z (t & -> & H). apply free_of_app. split; [| eapply scale_slash_free; eassumption].
  destruct (upscale z); cbv; intuition discriminate.
Qed.

Lemma rotation_slash_free : forall s r, rotation_text s r -> free_of "/" s.
Proof.
  intros s z (t & -> & H & _). apply free_of_app. split.
  - destruct (mirror z); cbv; intuition discriminate.
  - eapply f32_literal_free; [exact H | exact slash_not_float].
Qed.

Lemma qf_slash_free : forall q f, free_of "/" (quality_name q ++ "." ++ format_name f).
Proof. intros q f. destruct q, f; cbv; intuition discriminate. Qed.

Lemma split_slash : forall x y, free_of "/" x -> split_on "/" (x ++ "/" ++ y) = x :: split_on "/" y.
Proof. intros. apply split_on_app. assumption. Qed.

Lemma trailing_split : forall qf rest, free_of "/" qf -> trailing rest ->
  exists more, split_on "/" (qf ++ rest) = qf :: more.
Proof.
  intros qf rest Hf [-> | [t ->]].
  - exists []. rewrite app_nil_r_s. apply split_on_free; assumption.
  - exists (split_on "/" t). apply split_slash. assumption.
Qed.

Lemma cons_split_rest : forall qf s more, split_on "/" s = qf :: more ->
  exists rest, s = qf ++ rest /\ trailing rest.
Proof.
  intros qf s more H. pose proof (split_on_join "/" s) as J. rewrite H in J.
  destruct more as [| x more].
  - simpl in J. exists "". rewrite app_nil_r_s. split; [congruence | left; reflexivity].
  - rewrite join_cons in J. exists (String "/" (join "/" (x :: more))).
    split; [congruence |]. right. eexists. reflexivity.
Qed.

Lemma cons_split : forall x y s more, split_on "/" s = x :: y :: more ->
  exists t, s = x ++ "/" ++ t /\ split_on "/" t = y :: more /\ free_of "/" x.
Proof.
  intros x y s more H. pose proof (split_on_join "/" s) as J. pose proof (split_on_pieces_free "/" s) as F.
  rewrite H in J, F. rewrite join_cons in J. exists (join "/" (y :: more)).
  split; [symmetry; exact J |]. inversion F; subst. split; [| assumption].
  apply split_on_of_join; [discriminate | assumption].
Qed.

Lemma shape_split : forall s ident reg sz rot q f,
  (exists more, split_on "/" s = ident :: reg :: sz :: rot :: (quality_name q ++ "." ++ format_name f) :: more) <->
  (exists rest, trailing rest /\
     s = ident ++ "/" ++ reg ++ "/" ++ sz ++ "/" ++ rot ++ "/" ++ quality_name q ++ "." ++ format_name f ++ rest /\
     free_of "/" ident /\ free_of "/" reg /\ free_of "/" sz /\ free_of "/" rot).
Proof.
  intros. split.
  - intros [more H].
    apply cons_split in H. destruct H as (t1 & -> & H & F1).
    apply cons_split in H. destruct H as (t2 & -> & H & F2).
    apply cons_split in H. destruct H as (t3 & -> & H & F3).
    apply cons_split in H. destruct H as (t4 & -> & H & F4).
    apply cons_split_rest in H. destruct H as (rest & -> & Ht).
    exists rest. split; [assumption |]. rewrite !app_assoc_s. auto.
  - intros (rest & Ht & -> & F1 & F2 & F3 & F4).
    destruct (trailing_split (quality_name q ++ "." ++ format_name f) rest (qf_slash_free q f) Ht) as [more Hm].
    exists more. rewrite !split_slash by assumption. rewrite !app_assoc_s in Hm. rewrite Hm. reflexivity.
Qed.

Lemma decode_suffix_ok : forall s r,
  decode_segments show (split_on "/" s) = Ok r <->
  exists rest, trailing rest /\ image_uri ("/" ++ s) r rest.
Proof.
  intros s r. rewrite decode_segments_ok. unfold image_uri. split.
  - intros (ident & reg & sz & rot & qf & more & H & -> & Hd & Hu & Hr & Hs & Hro).
    destruct (proj1 (shape_split s ident reg sz rot (req_quality r) (req_format r)) (ex_intro _ more H))
      as (rest & Ht & -> & F1 & F2 & F3 & F4).
    exists rest. split; [assumption |]. exists ident, reg, sz, rot. intuition.
  - intros (rest & Ht & ident & reg & sz & rot & E & F1 & Hd & Hu & Hr & Hs & Hro).
    cbn [append] in E. inversion E as [E']. clear E.
    destruct (proj2 (shape_split s ident reg sz rot (req_quality r) (req_format r))) as [more H].
    { exists rest. split; [assumption |]. split; [exact E' |]. split; [assumption |].
      split; [eapply region_slash_free; eassumption |].
      split; [eapply size_slash_free; eassumption | eapply rotation_slash_free; eassumption]. }
    exists ident, reg, sz, rot, (quality_name (req_quality r) ++ "." ++ format_name (req_format r)), more.
    rewrite <- E'. intuition.
Qed.

Lemma decode_debug_slash : forall s, decode_image_request show true ("/" ++ s) = Done (decode_segments show (split_on "/" s)).
Proof. reflexivity. Qed.

Lemma decode_debug_other : forall p, (forall s, p <> "/" ++ s) -> decode_image_request show true p = Panic \/
  p = "".
Proof.
  intros p H. destruct p as [| a r]; [right; reflexivity |]. left.
  unfold decode_image_request. cbn [split_on].
  destruct (Ascii.eqb_spec a "/"); [subst; exfalso; exact (H r eq_refl) |].
  destruct (split_on "/" r); reflexivity.
Qed.

Lemma decode_debug_iff : forall path r,
  decode_image_request show true path = Done (Ok r) <->
  exists rest, trailing rest /\ image_uri path r rest.
Proof.
  intros path r. split.
  - intros H. destruct path as [| a s].
    { unfold decode_image_request in H. cbn [split_on] in H. inversion H. }
    destruct (Ascii.ascii_dec a "/") as [-> | Hne].
    + change (String "/" s) with ("/" ++ s) in *. rewrite decode_debug_slash in H.
      inversion H as [H']. apply decode_suffix_ok. assumption.
    + destruct (decode_debug_other (String a s)) as [E | E]; [| congruence | discriminate].
      intros t E. inversion E; congruence.
  - intros (rest & Ht & Hu). pose proof Hu as (ident & reg & sz & rot & E & _).
    rewrite E in *. rewrite decode_debug_slash. f_equal. apply decode_suffix_ok. exists rest. auto.
Qed.

Lemma decode_release_eq : forall path,
  decode_image_request show false path = decode_image_request show true ("/" ++ path).
Proof. intros. rewrite decode_debug_slash. reflexivity. Qed.

(** A region is never a size: regions have three commas or none. *)
Fixpoint commas (s : string) : nat :=
  match s with
  | EmptyString => 0
  | String a r => ((if Ascii.eqb a "," then 1 else 0) + commas r)%nat
  end.

Lemma commas_app : forall a b, commas (a ++ b) = (commas a + commas b)%nat.
Proof. induction a; intros; cbn [append commas]; [reflexivity | rewrite IHa; lia]. Qed.

Lemma commas_free : forall s, free_of "," s -> commas s = 0%nat.
Proof.
  induction s; intros H; cbn [commas]; [reflexivity |].
  apply free_of_cons in H. destruct H as [H1 H2].
  destruct (Ascii.eqb_spec a ","); [contradiction |]. rewrite IHs by assumption. reflexivity.
Qed.

Lemma region_not_size : forall s r z, region_text s r -> size_text s z -> False.
Proof.
  intros s r z Hr (t & E & Hs).
  assert (Hc : (commas s <= 1)%nat).
  { subst s. rewrite commas_app. assert (commas (if upscale z then "^" else "") = 0%nat) by (destruct (upscale z); reflexivity).
    rewrite H. destruct (size_scale z) as [| f | w h | w h]; cbn [scale_text] in Hs.
    - subst; simpl; lia.
    - destruct Hs as (u & -> & Hl & _). rewrite commas_app, (commas_free u); [simpl; lia |].
      eapply f32_comma_free; eassumption.
    - destruct Hs as (sw & sh & -> & _ & Hw & Hh). rewrite !commas_app, (commas_free sw), (commas_free sh);
        [simpl; lia | eapply opt_dim_free; eassumption | eapply opt_dim_free; eassumption].
    - destruct Hs as (sw & sh & -> & Hw & Hh). rewrite !commas_app, (commas_free sw), (commas_free sh);
        [simpl; lia | destruct Hh; eapply u32_comma_free; eassumption | destruct Hw; eapply u32_comma_free; eassumption]. }
  destruct r; cbn [region_text] in Hr.
  - subst s. assert (Hp : parse_size "full" = Ok z).
    { apply parse_size_ok. exists t. split; assumption. } discriminate Hp.
  - subst s. assert (Hp : parse_size "square" = Ok z).
    { apply parse_size_ok. exists t. split; assumption. } discriminate Hp.
  - destruct Hr as (a & b & c & d & -> & _). rewrite !commas_app in Hc. simpl in Hc. lia.
  - destruct Hr as (a & b & c & d & -> & _). rewrite !commas_app in Hc. simpl in Hc. lia.
Qed.

Lemma release_rejects : forall path r rest, trailing rest -> image_uri path r rest ->
  exists e, decode_image_request show false path = Done (Err e).
Proof.
  intros path r rest Ht Hu.
  destruct (decode_segments show (split_on "/" path)) as [r' | e] eqn:E.
  2: { exists e. unfold decode_image_request. rewrite E. reflexivity. }
  exfalso. apply decode_segments_ok in E.
  destruct E as (ident & reg & sz & rot & qf & more & H & _ & _ & _ & _ & Hs & _).
  destruct Hu as (i2 & rg2 & s2 & rot2 & E & F1 & Hd & Hut & Hr2 & Hs2 & Hro2).
  rewrite E in H. change ("/" ++ ?x) with (String "/" x) in H.
  cbn [append split_on] in H. rewrite Ascii.eqb_refl in H.
  assert (Hsp : split_on "/" (i2 ++ "/" ++ rg2 ++ "/" ++ s2 ++ "/" ++ rot2 ++ "/"
           ++ quality_name (req_quality r) ++ "." ++ format_name (req_format r) ++ rest) =
           i2 :: rg2 :: split_on "/" (s2 ++ "/" ++ rot2 ++ "/"
           ++ quality_name (req_quality r) ++ "." ++ format_name (req_format r) ++ rest)).
  { rewrite !split_slash by (assumption || eapply region_slash_free; eassumption). reflexivity. }
  cbn [append] in Hsp. rewrite Hsp in H. inversion H; subst.
  exact (region_not_size _ _ _ Hr2 Hs).
Qed.

(** ** Error messages never panic *)

Definition printable (e : parse_error) : Prop := exists t, display_parse_error e = Done t.

Lemma selector_error_printable : forall pct i p e, (i < 4)%nat -> selector_error show pct i p e -> printable e.
Proof.
  intros pct i p e Hi H. unfold printable.
  assert (Hn : exists nm, selector_name i = Done nm).
  { destruct i as [| [| [| [| i]]]]; try lia; eexists; reflexivity. }
  destruct Hn as [nm Hn].
  destruct pct; cbn [selector_error] in H; destruct H as [[_ ->] | H].
  - simpl. unfold with_selector. rewrite Hn. eauto.
  - destruct H as (f & _ & _ & ->). simpl. unfold with_selector. rewrite Hn. eauto.
  - simpl. unfold with_selector. rewrite Hn. eauto.
  - destruct H as (_ & _ & ->). simpl. unfold with_selector. rewrite Hn. eauto.
Qed.

Lemma region_fault_printable : forall pct t e, region_fault show pct t e -> printable e.
Proof.
  intros pct t e (l & _ & [(i & p & _ & Hi & _ & H) | (_ & _ & ->)]).
  - eapply selector_error_printable; eassumption.
  - eexists; reflexivity.
Qed.

Lemma parse_region_printable : forall s e, parse_region show s = Err e -> printable e.
Proof.
  intros s e H. apply parse_region_err in H. destruct H as (_ & _ & [(t & _ & H) | [_ H]]);
    eapply region_fault_printable; eassumption.
Qed.

Lemma parse_scale_px_printable : forall s e, parse_scale_px s = Err e -> printable e.
Proof.
  intros s e. unfold parse_scale_px. destruct (parse_u32 s); [destruct (z =? 0)%Z |];
    intros H; inversion H; subst; eexists; reflexivity.
Qed.

Lemma parse_opt_px_printable : forall s e, parse_opt_px s = Err e -> printable e.
Proof.
  intros s e. unfold parse_opt_px. destruct s as [| a s]; [discriminate |].
  destruct (parse_scale_px (String a s)) eqn:E; [discriminate |].
  intros H; inversion H; subst. eapply parse_scale_px_printable; eassumption.
Qed.

Lemma parse_size_printable : forall s e, parse_size s = Err e -> printable e.
Proof.
  intros s e. unfold parse_size, parse_scale_percent.
  intros H.
  repeat match type of H with
  | (let '(_, _) := match ?x with _ => _ end in _) = _ => destruct x
  | (if ?x then _ else _) = _ => destruct x
  | match ?x with _ => _ end = _ => destruct x eqn:?
  | Ok _ = Err _ => discriminate H
  | Err _ = Err _ => inversion H; subst; clear H
  end;
  first [ eapply parse_scale_px_printable; eassumption
        | eapply parse_opt_px_printable; eassumption
        | eexists; reflexivity ].
Qed.

Lemma parse_rotation_printable : forall s e, parse_rotation s = Err e -> printable e.
Proof.
  intros s e. unfold parse_rotation, printable. intros H.
  destruct (strip_prefix "!" s); destruct (parse_f32 _);
    try (destruct (f32_ge0 f && f32_le_int f 360));
    inversion H; subst; eexists; reflexivity.
Qed.

Lemma parse_quality_printable : forall s e, parse_quality s = Err e -> printable e.
Proof.
  intros s e. unfold parse_quality, printable. intros H.
  repeat match type of H with (if ?x then _ else _) = _ => destruct x end;
    inversion H; subst; eexists; reflexivity.
Qed.

Lemma parse_format_printable : forall s e, parse_format s = Err e -> printable e.
Proof.
  intros s e. unfold parse_format, printable. intros H.
  repeat match type of H with (if ?x then _ else _) = _ => destruct x end;
    inversion H; subst; eexists; reflexivity.
Qed.

Lemma decode_segments_printable : forall l e, decode_segments show l = Err e ->
  exists t, display_request_error e = Done t.
Proof.
  intros segs e. unfold decode_segments.
  destruct segs as [| ident segs]; cbn [opt_next]; [intros H; inversion H; subst; eexists; reflexivity |].
  destruct (url_decode ident) as [i |] eqn:E1; [| intros H; inversion H; subst; eexists; reflexivity].
  destruct segs as [| reg segs]; cbn [opt_next]; [intros H; inversion H; subst; eexists; reflexivity |].
  destruct (parse_region show reg) as [rg | e'] eqn:E2;
    [| intros H; inversion H; subst; exact (parse_region_printable _ _ E2)].
  destruct segs as [| sz segs]; cbn [opt_next]; [intros H; inversion H; subst; eexists; reflexivity |].
  destruct (parse_size sz) as [z | e'] eqn:E3;
    [| intros H; inversion H; subst; exact (parse_size_printable _ _ E3)].
  destruct segs as [| rot segs]; cbn [opt_next]; [intros H; inversion H; subst; eexists; reflexivity |].
  destruct (parse_rotation rot) as [rt | e'] eqn:E4;
    [| intros H; inversion H; subst; exact (parse_rotation_printable _ _ E4)].
  destruct segs as [| qf segs]; cbn [opt_next]; [intros H; inversion H; subst; eexists; reflexivity |].
  destruct (split_once "." qf) as [[q f] |] eqn:E5; [| intros H; inversion H; subst; eexists; reflexivity].
  destruct (parse_quality q) as [qq | e'] eqn:E6;
    [| intros H; inversion H; subst; exact (parse_quality_printable _ _ E6)].
  destruct (parse_format f) as [ff | e'] eqn:E7;
    [discriminate | intros H; inversion H; subst; exact (parse_format_printable _ _ E7)].
Qed.

(** ** Routing *)

Lemma handle_get_image : forall debug resolve s,
  ends_with "info.json" ("/" ++ s) = false ->
  handle_request show debug resolve GET ("/" ++ s) =
  image_request_handler show debug resolve ("/" ++ s).
Proof.
  intros debug resolve s H. unfold handle_request. rewrite H. reflexivity.
Qed.

Lemma image_request_done : forall debug resolve s, exists resp,
  image_request_handler show debug resolve ("/" ++ s) = Done resp.
Proof.
  intros debug resolve s. unfold image_request_handler.
  assert (Hd : exists d, decode_image_request show debug ("/" ++ s) = Done d /\
     forall e, d = Err e -> exists t, display_request_error e = Done t).
  { destruct debug.
    - rewrite decode_debug_slash. eexists. split; [reflexivity |]. intros e. apply decode_segments_printable.
    - eexists. split; [reflexivity |]. intros e. apply decode_segments_printable. }
  destruct Hd as [[r | e] [-> He]].
  - destruct (resolve (identifier r)); eauto.
  - destruct (He e eq_refl) as [t ->]. eauto.
Qed.
End Uri.

(** ** Path containment *)

Lemma pieces_app_cur : forall s cur, exists h t, pieces s "" = h :: t /\ pieces s cur = (cur ++ h) :: t.
Proof.
  induction s; intros cur; cbn [pieces].
  - exists "", []. rewrite app_nil_r_s. auto.
  - destruct (Ascii.eqb a "/").
    + exists "", (pieces s ""). rewrite app_nil_r_s. auto.
    + cbn [append]. destruct (IHs (String a "")) as (h & t & E1 & E2).
      destruct (IHs (cur ++ String a "")) as (h' & t' & E1' & E2').
      rewrite E1 in E1'. inversion E1'; subst. rewrite E2, E2'.
      exists (String a "" ++ h'), t'. split; [reflexivity |]. rewrite app_assoc_s. reflexivity.
Qed.

Lemma pieces_app : forall a b cur, pieces (a ++ "/" ++ b) cur = (pieces a cur ++ pieces b "")%list.
Proof.
  induction a; intros b cur; cbn [append pieces].
  - reflexivity.
  - cbn [append] in IHa. destruct (Ascii.eqb a "/"); rewrite IHa; reflexivity.
Qed.

Lemma walk_app : forall a b st, walk st (a ++ b) = walk (walk st a) b.
Proof.
  induction a as [| c a IH]; intros b st; [reflexivity |]. cbn [walk app].
  destruct (_ || _); [apply IH |]. destruct (String.eqb c ".."); apply IH.
Qed.

Lemma walk_push : forall l st, ~ In ".." l -> exists below, walk st l = (below ++ st)%list.
Proof.
  induction l as [| c l IH]; intros st H; cbn [walk].
  - exists []. reflexivity.
  - assert (Hl : ~ In ".." l) by (intros X; apply H; right; exact X).
    destruct (_ || _); [apply IH; assumption |].
    destruct (String.eqb_spec c ".."); [exfalso; apply H; left; assumption |].
    destruct (IH (c :: st) Hl) as [b Hb]. exists (b ++ [c])%list. rewrite Hb, <- app_assoc. reflexivity.
Qed.

Lemma location_join : forall base ident, ~ In ".." (pieces ident "") ->
  inside (location base) (location (base ++ "/" ++ ident)).
Proof.
  intros base ident H. unfold inside, location. rewrite pieces_app, walk_app.
  destruct (walk_push (pieces ident "") (walk [] (pieces base "")) H) as [b Hb].
  rewrite Hb, rev_app_distr. eexists. reflexivity.
Qed.

Lemma location_slash : forall b, location (b ++ "/") = location b.
Proof.
  intros b. unfold location. change (b ++ "/") with (b ++ "/" ++ ""). rewrite pieces_app, walk_app. reflexivity.
Qed.

Lemma path_join_inside : forall base ident,
  (forall t, ident <> "/" ++ t) -> ~ In ".." (pieces ident "") ->
  inside (location base) (location (path_join base ident)).
Proof.
  intros base ident Hrel Hdd. unfold path_join.
  destruct (strip_prefix "/" ident) eqn:E.
  { apply strip_prefix_some in E. exfalso. exact (Hrel _ E). }
  destruct (String.eqb_spec base "") as [-> | Hb]; cbn [orb].
  - exists (location ident). reflexivity.
  - destruct (ends_with "/" base) eqn:Ee.
    + apply ends_with_spec in Ee. destruct Ee as [b ->].
      rewrite location_slash, app_assoc_s. apply location_join. assumption.
    + apply location_join. assumption.
Qed.

Lemma path_join_absolute : forall base t, path_join base ("/" ++ t) = "/" ++ t.
Proof. reflexivity. Qed.

(** ** Every byte string can be percent-encoded *)

Lemma hex_total : forall d, (0 <= d < 16)%Z -> exists h, hex_value h = Some d.
Proof.
  intros d H.
  assert (In d [0;1;2;3;4;5;6;7;8;9;10;11;12;13;14;15]%Z) as Hin by (simpl; lia).
  simpl in Hin.
  repeat (destruct Hin as [<- | Hin];
    [first [ exists "0"%char; reflexivity | exists "1"%char; reflexivity | exists "2"%char; reflexivity
           | exists "3"%char; reflexivity | exists "4"%char; reflexivity | exists "5"%char; reflexivity
           | exists "6"%char; reflexivity | exists "7"%char; reflexivity | exists "8"%char; reflexivity
           | exists "9"%char; reflexivity | exists "A"%char; reflexivity | exists "B"%char; reflexivity
           | exists "C"%char; reflexivity | exists "D"%char; reflexivity | exists "E"%char; reflexivity
           | exists "F"%char; reflexivity ] |]).
  contradiction.
Qed.

Lemma pct_total : forall s, exists e, pct_encodes e s.
Proof.
  induction s as [| a s [e He]]; [exists ""; constructor |].
  pose proof (code_range a) as Ra.
  destruct (hex_total (code a / 16)) as [h1 H1]; [lia |].
  destruct (hex_total (code a mod 16)) as [h2 H2]; [lia |].
  exists (String "%" (String h1 (String h2 e))). econstructor; [exact H1 | exact H2 | | exact He].
  fold (code a). lia.
Qed.
