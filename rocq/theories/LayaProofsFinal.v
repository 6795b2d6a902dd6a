(** Final assembly of the Laya theorems (proofs only; statements are repeated
    in [LayaProps]). *)

From Coq Require Import ZArith NArith List String Ascii Bool Lia.
From Verif Require Import LayaModel LayaSpec LayaProofsStr LayaProofsF32 LayaProofsParse
  LayaProofsIiif LayaProofsHttp LayaProofsBounds.
Import ListNotations.
Local Open Scope string_scope.

Lemma pct_size_bounds : forall t,
  (exists z, parse_size ("pct:" ++ t) = Ok z) <->
  (exists m p, plus_decimal t m p /\ ~ dec_le m p 1 (2 ^ 150) /\ dec_le m p (100 * 2 ^ 18 + 1) (2 ^ 18)).
Proof.
  intros t. rewrite <- pct_bounds.
  change (parse_size ("pct:" ++ t)) with (parse_scale_percent t false).
  unfold parse_scale_percent. split.
  - intros [z H]. destruct (parse_f32 t) as [f |] eqn:E; [| discriminate].
    apply parse_f32_spec in E. pose proof (f32_literal_canonical _ _ E) as Hc.
    destruct (f32_gt0 f && (f32_le_int f 100 || false)) eqn:Eb; [| discriminate].
    rewrite orb_false_r, andb_true_iff in Eb. destruct Eb as [E1 E2].
    exists f. split; [assumption |]. split; [apply f32_gt0_spec; assumption | apply f32_le_int_spec; assumption].
  - intros (f & Hf & Hp & Hm). rewrite (proj2 (parse_f32_spec _ _) Hf).
    rewrite (proj2 (f32_gt0_spec f) Hp), (proj2 (f32_le_int_spec f 100 (f32_literal_canonical _ _ Hf)) Hm).
    eexists; reflexivity.
Qed.

Lemma pct_size_up_bounds : forall t,
  (exists z, parse_size ("^pct:" ++ t) = Ok z) <->
  (exists m p, plus_decimal t m p /\ ~ dec_le m p 1 (2 ^ 150)) \/ plus_infinity t.
Proof.
  intros t. rewrite <- positive_bounds.
  change (parse_size ("^pct:" ++ t)) with (parse_scale_percent t true).
  unfold parse_scale_percent. split.
  - intros [z H]. destruct (parse_f32 t) as [f |] eqn:E; [| discriminate].
    apply parse_f32_spec in E.
    destruct (f32_gt0 f && (f32_le_int f 100 || true)) eqn:Eb; [| discriminate].
    rewrite andb_true_iff in Eb. destruct Eb as [E1 _].
    exists f. split; [assumption | apply f32_gt0_spec; assumption].
  - intros (f & Hf & Hp). rewrite (proj2 (parse_f32_spec _ _) Hf).
    rewrite (proj2 (f32_gt0_spec f) Hp), orb_true_r. eexists; reflexivity.
Qed.

Lemma rotation_accepts : forall s,
  (exists r, parse_rotation s = Ok r) <->
  exists bang t, (bang = "" \/ bang = "!") /\ s = bang ++ t /\
   ((exists m p, plus_decimal t m p /\ dec_le m p (360 * 2 ^ 16 + 1) (2 ^ 16)) \/
    (exists m p, minus_decimal t m p /\ dec_le m p 1 (2 ^ 150))).
Proof.
  intros s. split.
  - intros [r H]. apply parse_rotation_ok in H. destruct H as (t & -> & Hl & Hn & Hm).
    exists (if mirror r then "!" else ""), t. split; [destruct (mirror r); auto |]. split; [reflexivity |].
    apply angle_bounds. eauto.
  - intros (bang & t & Hb & -> & H). apply angle_bounds in H. destruct H as (f & Hl & Hn & Hm).
    exists (mkRotation f (String.eqb bang "!")). apply parse_rotation_ok. exists t. cbn [mirror degrees].
    split; [destruct Hb as [-> | ->]; reflexivity | auto].
Qed.

Section Handler.
Variable show : f32 -> string.

Lemma decode_unique : forall path r1 r2 rest1 rest2,
  trailing rest1 -> trailing rest2 -> image_uri path r1 rest1 -> image_uri path r2 rest2 -> r1 = r2.
Proof.
  intros path r1 r2 rest1 rest2 T1 T2 U1 U2.
  assert (H1 : decode_image_request show true path = Done (Ok r1)) by (apply decode_debug_iff; eauto).
  assert (H2 : decode_image_request show true path = Done (Ok r2)) by (apply decode_debug_iff; eauto).
  congruence.
Qed.

Lemma canonical_decodes : forall r ident reg sz rot,
  utf8_text (identifier r) -> pct_encodes ident (identifier r) ->
  region_text reg (req_region r) -> size_text sz (req_size r) -> rotation_text rot (req_rotation r) ->
  decode_image_request show true
    ("/" ++ ident ++ "/" ++ reg ++ "/" ++ sz ++ "/" ++ rot ++ "/"
       ++ quality_name (req_quality r) ++ "." ++ format_name (req_format r)) = Done (Ok r).
Proof.
  intros r ident reg sz rot Hu He Hr Hs Hro. destruct (pct_encodes_decodes _ _ He) as [Hd Hf].
  apply decode_debug_iff. exists "". split; [left; reflexivity |].
  exists ident, reg, sz, rot. rewrite app_nil_r_s. intuition.
Qed.

Lemma canonical_rejected_release : forall r ident reg sz rot,
  utf8_text (identifier r) -> pct_encodes ident (identifier r) ->
  region_text reg (req_region r) -> size_text sz (req_size r) -> rotation_text rot (req_rotation r) ->
  exists e, decode_image_request show false
    ("/" ++ ident ++ "/" ++ reg ++ "/" ++ sz ++ "/" ++ rot ++ "/"
       ++ quality_name (req_quality r) ++ "." ++ format_name (req_format r)) = Done (Err e).
Proof.
  intros r ident reg sz rot Hu He Hr Hs Hro. destruct (pct_encodes_decodes _ _ He) as [Hd Hf].
  apply (release_rejects show _ r ""); [left; reflexivity |].
  exists ident, reg, sz, rot. rewrite app_nil_r_s. intuition.
Qed.

Lemma release_iff : forall path r,
  decode_image_request show false path = Done (Ok r) <->
  exists rest, trailing rest /\ image_uri ("/" ++ path) r rest.
Proof. intros. rewrite decode_release_eq. apply decode_debug_iff. Qed.

Definition ends_in_info_json (path : string) : Prop := exists q, path = q ++ "info.json".

Lemma handle_total : forall debug resolve m path,
  (m = GET /\ ends_in_info_json path) \/
  exists resp, handle_request show debug resolve m path = Done resp.
Proof.
  intros debug resolve m path. destruct m; [| right; eexists; reflexivity].
  unfold handle_request. destruct (ends_with "info.json" path) eqn:E.
  - left. split; [reflexivity |]. apply ends_with_spec in E. exact E.
  - right. destruct (starts_with "/" path) eqn:Es; [| eexists; reflexivity].
    apply starts_with_spec in Es. destruct Es as [t ->]. apply image_request_done.
Qed.

Lemma handle_info_panics : forall debug resolve path, ends_in_info_json path ->
  handle_request show debug resolve GET path = Panic.
Proof.
  intros debug resolve path H. unfold handle_request. apply ends_with_spec in H. rewrite H. reflexivity.
Qed.

Lemma handle_404 : forall debug resolve m path resp,
  handle_request show debug resolve m path = Done resp ->
  (status resp = 404%Z <-> m <> GET \/ forall t, path <> "/" ++ t).
Proof.
  intros debug resolve m path resp. destruct m; unfold handle_request.
  2: { intros H; inversion H; subst. split; [left; discriminate | reflexivity]. }
  destruct (ends_with "info.json" path); [discriminate |].
  destruct (starts_with "/" path) eqn:Es.
  - apply starts_with_spec in Es. destruct Es as [t ->]. intros H. split.
    + intros Hst. exfalso. unfold image_request_handler in H.
      destruct (decode_image_request show debug ("/" ++ t)) as [[r | e] |]; [| | discriminate].
      * destruct (resolve (identifier r)); inversion H; subst; discriminate.
      * destruct (display_request_error e); [inversion H; subst; discriminate | discriminate].
    + intros [X | X]; [contradiction | exfalso; exact (X t eq_refl)].
  - intros H; inversion H; subst. split; [| reflexivity]. intros _. right. intros t ->.
    discriminate Es.
Qed.

Lemma handle_200 : forall resolve m path resp,
  handle_request show true resolve m path = Done resp ->
  (status resp = 200%Z <->
   m = GET /\ exists r rest, trailing rest /\ image_uri path r rest /\ resolve (identifier r) = true).
Proof.
  intros resolve m path resp. destruct m; unfold handle_request.
  2: { intros H; inversion H; subst. split; [discriminate | intros [X _]; discriminate]. }
  destruct (ends_with "info.json" path); [discriminate |].
  destruct (starts_with "/" path) eqn:Es.
  - apply starts_with_spec in Es. destruct Es as [t ->]. unfold image_request_handler.
    destruct (decode_image_request show true ("/" ++ t)) as [[r | e] |] eqn:Ed; [| | discriminate].
    + apply decode_debug_iff in Ed. destruct Ed as (rest & Ht & Hu). intros H. split.
      * intros Hst. split; [reflexivity |]. exists r, rest. split; [assumption |]. split; [assumption |].
        destruct (resolve (identifier r)); [reflexivity | inversion H; subst; discriminate].
      * intros (_ & r' & rest' & Ht' & Hu' & Hr).
        assert (r' = r) by (eapply decode_unique; [exact Ht' | exact Ht | exact Hu' | exact Hu]). subst r'.
        rewrite Hr in H. inversion H; reflexivity.
    + intros H. split.
      * intros Hst. destruct (display_request_error e); inversion H; subst; discriminate.
      * intros (_ & r & rest & Ht & Hu & _).
        assert (decode_image_request show true ("/" ++ t) = Done (Ok r)) by (apply decode_debug_iff; eauto).
        congruence.
  - intros H; inversion H; subst. split; [discriminate |].
    intros (_ & r & rest & _ & (i & rg & sz & rot & -> & _) & _). discriminate Es.
Qed.

Lemma handle_other_status : forall debug resolve m path resp,
  handle_request show debug resolve m path = Done resp ->
  status resp = 200%Z \/ status resp = 400%Z \/ status resp = 404%Z.
Proof.
  intros debug resolve m path resp. destruct m; unfold handle_request.
  2: { intros H; inversion H; subst. auto. }
  destruct (ends_with "info.json" path); [discriminate |].
  destruct (starts_with "/" path); [| intros H; inversion H; subst; auto].
  unfold image_request_handler.
  destruct (decode_image_request show debug path) as [[r | e] |]; [| | discriminate].
  - destruct (resolve (identifier r)); intros H; inversion H; subst; auto.
  - destruct (display_request_error e); intros H; inversion H; subst; auto.
Qed.

(** Any absolute file name whatsoever can be opened through some URI. *)
Lemma any_file_reachable : forall base t, utf8_text ("/" ++ t) ->
  exists path r, decode_image_request show true path = Done (Ok r) /\
                 path_join base (identifier r) = "/" ++ t.
Proof.
  intros base t Hu. destruct (pct_total ("/" ++ t)) as [e He].
  exists ("/" ++ e ++ "/" ++ "full" ++ "/" ++ "max" ++ "/" ++ "0" ++ "/" ++ "default" ++ "." ++ "jpg").
  exists (mkRequest ("/" ++ t) Full (mkSize Max false) (mkRotation (F32fin false 0 (-149)) false) QDefault Jpg).
  split; [| reflexivity].
  apply (canonical_decodes (mkRequest ("/" ++ t) Full (mkSize Max false)
     (mkRotation (F32fin false 0 (-149)) false) QDefault Jpg) e "full" "max" "0"); try assumption.
  - reflexivity.
  - apply parse_size_ok. reflexivity.
  - apply parse_rotation_ok. reflexivity.
Qed.
End Handler.

Lemma contained : forall show base path r,
  decode_image_request show true path = Done (Ok r) ->
  (forall t, identifier r <> "/" ++ t) -> ~ In ".." (pieces (identifier r) "") ->
  inside (location base) (location (path_join base (identifier r))).
Proof. intros show base path r _ H1 H2. apply path_join_inside; assumption. Qed.

(** Names *)
Lemma quality_name_inj : forall a b, quality_name a = quality_name b -> a = b.
Proof. intros [] []; discriminate || reflexivity. Qed.
Lemma format_name_inj : forall a b, format_name a = format_name b -> a = b.
Proof. intros [] []; discriminate || reflexivity. Qed.
Lemma mime_inj : forall a b, mime a = mime b -> a = b.
Proof. intros [] []; discriminate || reflexivity. Qed.
