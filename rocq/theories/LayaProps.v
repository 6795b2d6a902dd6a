(** Property theorems about the IIIF front end (src/iiif.rs, src/iiif/parse.rs,
    src/http.rs, src/resolve.rs) and the server glue (src/lib.rs).
    [show] stands for [f32::to_string], which only appears in error texts. *)

From Coq Require Import ZArith NArith List String Ascii Bool Lia Permutation.
From Verif Require Import LayaModel LayaSpec LayaProofsStr LayaProofsF32 LayaProofsParse
  LayaProofsIiif LayaProofsHttp LayaProofsBounds LayaProofsFinal LayaRuntimeModel LayaProofsRuntime.
Import ListNotations.
Local Open Scope string_scope.

(** ** C01 *)
Theorem c01_region_grammar : forall show s r,
  parse_region show s = Ok r <-> region_text s r.
Proof. exact parse_region_ok. Qed.

Example c01_example : region_text "125,+15,120,0140" (Absolute 125 15 120 140).
Proof. apply (c01_region_grammar (fun _ => "")). vm_compute. reflexivity. Qed.
Example c01_example_pct :
  region_text "pct:41.6,7.5,40,70"
    (Percentage (F32fin false 10905190 (-18)) (F32fin false 15728640 (-21))
       (F32fin false 10485760 (-18)) (F32fin false 9175040 (-17))).
Proof. apply (c01_region_grammar (fun _ => "")). vm_compute. reflexivity. Qed.
Print Assumptions c01_region_grammar.

(** ** C02 *)
Theorem c02_region_error : forall show s e,
  parse_region show s = Err e <->
  s <> "full" /\ s <> "square" /\
  ((exists t, s = "pct:" ++ t /\ region_fault show true t e) \/
   ((~ exists t, s = "pct:" ++ t) /\ region_fault show false s e)).
Proof. exact parse_region_err. Qed.

Example c02_example : parse_region (fun _ => "") "1,2,0,x" = Err (RegionSelectorOutOfBounds "0" 2).
Proof. vm_compute. reflexivity. Qed.
Print Assumptions c02_region_error.

(** ** C03 *)
Theorem c03_size_grammar : forall s z, parse_size s = Ok z <-> size_text s z.
Proof. exact parse_size_ok. Qed.

Example c03_example : size_text "^!225,100" (mkSize (AspectPreserving 225 100) true).
Proof. apply c03_size_grammar. vm_compute. reflexivity. Qed.
Print Assumptions c03_size_grammar.

(** ** C04: the accepted percentages are exactly those with
    2^-150 < n <= 100 + 2^-18. *)
Theorem c04_percentage_bounds : forall t,
  (exists z, parse_size ("pct:" ++ t) = Ok z) <->
  (exists m p, plus_decimal t m p /\ ~ dec_le m p 1 (2 ^ 150) /\
               dec_le m p (100 * 2 ^ 18 + 1) (2 ^ 18)).
Proof. exact pct_size_bounds. Qed.

Theorem c04_percentage_bounds_upscale : forall t,
  (exists z, parse_size ("^pct:" ++ t) = Ok z) <->
  (exists m p, plus_decimal t m p /\ ~ dec_le m p 1 (2 ^ 150)) \/ plus_infinity t.
Proof. exact pct_size_up_bounds. Qed.

(** A percentage strictly above 100 is accepted without the upscaling prefix. *)
Theorem c04_no_upscaling_refuted : exists t m p z,
  parse_size ("pct:" ++ t) = Ok z /\ upscale z = false /\
  plus_decimal t m p /\ ~ dec_le m p 100 1.
Proof.
  exists "100.000003", 100000003%Z, (-6)%Z.
  exists (mkSize (ScalePercentage (F32fin false 13107200 (-17))) false).
  split; [vm_compute; reflexivity |]. split; [reflexivity |]. split.
  - exists "", "100.000003". split; [auto |]. split; [reflexivity |].
    exists "100", "000003", ".", "", 0%Z. split; [auto |]. split; [discriminate |].
    split; [| split; [left; auto | split; reflexivity]].
    assert (H : exists v, digits ("100" ++ "000003") v /\ v = 100000003%Z).
    { eexists. split; [| shelve]. cbn [append]. repeat (econstructor; [reflexivity |]). constructor.
      Unshelve. reflexivity. }
    destruct H as (v & H & <-). exact H.
  - cbv. intros H. apply H. reflexivity.
Qed.
Print Assumptions c04_percentage_bounds.
Print Assumptions c04_percentage_bounds_upscale.
Print Assumptions c04_no_upscaling_refuted.

(** ** C05 *)
Theorem c05_rotation_grammar : forall s r, parse_rotation s = Ok r <-> rotation_text s r.
Proof. exact parse_rotation_ok. Qed.

(** Accepted angles: 0 <= n <= 360 + 2^-16, or a negative number that rounds to -0. *)
Theorem c05_rotation_bounds : forall s,
  (exists r, parse_rotation s = Ok r) <->
  exists bang t, (bang = "" \/ bang = "!") /\ s = bang ++ t /\
   ((exists m p, plus_decimal t m p /\ dec_le m p (360 * 2 ^ 16 + 1) (2 ^ 16)) \/
    (exists m p, minus_decimal t m p /\ dec_le m p 1 (2 ^ 150))).
Proof. exact rotation_accepts. Qed.

Example c05_example : rotation_text "!22.5" (mkRotation (F32fin false 11796480 (-19)) true).
Proof. apply c05_rotation_grammar. vm_compute. reflexivity. Qed.
Print Assumptions c05_rotation_grammar.
Print Assumptions c05_rotation_bounds.

(** ** C06 *)
Theorem c06_quality_names : forall s q, parse_quality s = Ok q <-> s = quality_name q.
Proof. exact parse_quality_ok. Qed.
Theorem c06_format_names : forall s f, parse_format s = Ok f <-> s = format_name f.
Proof. exact parse_format_ok. Qed.
Theorem c06_names_distinct :
  (forall a b, quality_name a = quality_name b -> a = b) /\
  (forall a b, format_name a = format_name b -> a = b) /\
  (forall a b, mime a = mime b -> a = b).
Proof. exact (conj quality_name_inj (conj format_name_inj mime_inj)). Qed.

Example c06_example : parse_format "webp" = Ok Webp /\ parse_quality "Color" = Err (UnrecognisedQuality "Color").
Proof. vm_compute. auto. Qed.
Print Assumptions c06_quality_names.
Print Assumptions c06_format_names.
Print Assumptions c06_names_distinct.

(** ** C07 *)
Theorem c07_canonical_uri : forall show r ident reg sz rot,
  utf8_text (identifier r) -> pct_encodes ident (identifier r) ->
  region_text reg (req_region r) -> size_text sz (req_size r) -> rotation_text rot (req_rotation r) ->
  decode_image_request show true
    ("/" ++ ident ++ "/" ++ reg ++ "/" ++ sz ++ "/" ++ rot ++ "/"
       ++ quality_name (req_quality r) ++ "." ++ format_name (req_format r)) = Done (Ok r).
Proof. exact canonical_decodes. Qed.

(** The exact accepted language (debug build): further path segments are ignored. *)
Theorem c07_uri_language : forall show path r,
  decode_image_request show true path = Done (Ok r) <->
  exists rest, trailing rest /\ image_uri path r rest.
Proof. exact decode_debug_iff. Qed.

Example c07_example :
  decode_image_request (fun _ => "") true "/a%2F%3F%23%5B%5D%40%25z/square/^,100/!90/gray.png/extra" =
  Done (Ok (mkRequest "a/?#[]@%z" Square (mkSize (Fixed None (Some 100%Z)) true)
              (mkRotation (F32fin false 11796480 (-17)) true) Gray Png)).
Proof. vm_compute. reflexivity. Qed.
Print Assumptions c07_canonical_uri.
Print Assumptions c07_uri_language.

(** ** C08 *)
Theorem c08_build_modes_agree_refuted : exists show path,
  decode_image_request show false path <> decode_image_request show true path.
Proof.
  exists (fun _ => ""), "/abcd1234/full/max/0/default.jpg". vm_compute. discriminate.
Qed.

(** In a release build every canonical URI is rejected ... *)
Theorem c08_release_rejects_canonical : forall show r ident reg sz rot,
  utf8_text (identifier r) -> pct_encodes ident (identifier r) ->
  region_text reg (req_region r) -> size_text sz (req_size r) -> rotation_text rot (req_rotation r) ->
  exists e, decode_image_request show false
    ("/" ++ ident ++ "/" ++ reg ++ "/" ++ sz ++ "/" ++ rot ++ "/"
       ++ quality_name (req_quality r) ++ "." ++ format_name (req_format r)) = Done (Err e).
Proof. exact canonical_rejected_release. Qed.

(** ... and what is accepted are the paths that lack the leading slash. *)
Theorem c08_release_language : forall show path r,
  decode_image_request show false path = Done (Ok r) <->
  exists rest, trailing rest /\ image_uri ("/" ++ path) r rest.
Proof. exact release_iff. Qed.

Example c08_example :
  decode_image_request (fun _ => "") false "/full/max/0/default.jpg" =
  Done (Ok (mkRequest "" Full (mkSize Max false) (mkRotation (F32fin false 0 (-149)) false) QDefault Jpg)).
Proof. vm_compute. reflexivity. Qed.
Print Assumptions c08_build_modes_agree_refuted.
Print Assumptions c08_release_rejects_canonical.
Print Assumptions c08_release_language.

(** ** C09 *)
Theorem c09_percent_decoding : forall e s,
  url_decode e = Some s <-> pct_decodes e s /\ utf8_text s.
Proof. exact url_decode_spec. Qed.

Theorem c09_not_utf8_refused : forall e,
  url_decode e = None <-> forall s, pct_decodes e s -> ~ utf8_text s.
Proof. exact url_decode_none. Qed.

Theorem c09_encode_decode : forall s, utf8_text s ->
  (exists e, pct_encodes e s) /\ forall e, pct_encodes e s -> url_decode e = Some s.
Proof.
  intros s Hu. split; [apply pct_total |].
  intros e He. apply c09_percent_decoding. split; [apply pct_encodes_decodes; assumption | assumption].
Qed.

Theorem c09_plain_unchanged : forall s, utf8_text s -> free_of "%" s -> url_decode s = Some s.
Proof.
  intros s Hu Hf. apply c09_percent_decoding. split; [| assumption]. clear Hu.
  induction s; [constructor |]. apply free_of_cons in Hf. constructor; tauto.
Qed.

Example c09_example : url_decode "%E2%82%AC%zz" = Some (utf8_of_scalars [8364; 37; 122; 122]%Z)
  /\ url_decode "%ED%A0%80" = None.
Proof. vm_compute. auto. Qed.
Print Assumptions c09_percent_decoding.
Print Assumptions c09_not_utf8_refused.
Print Assumptions c09_encode_decode.
Print Assumptions c09_plain_unchanged.

(** ** C10 *)
Theorem c10_answered_refuted : exists show debug resolve,
  handle_request show debug resolve GET "/abcd1234/info.json" = Panic.
Proof. exists (fun _ => ""), true, (fun _ => true). vm_compute. reflexivity. Qed.

(** The only unanswered requests are GETs of paths ending in info.json. *)
Theorem c10_answered_iff : forall show debug resolve m path,
  handle_request show debug resolve m path = Panic <->
  m = GET /\ exists q, path = q ++ "info.json".
Proof.
  intros show debug resolve m path. split.
  - intros H. destruct (handle_total show debug resolve m path) as [X | [resp X]]; [exact X | congruence].
  - intros [-> Hi]. apply handle_info_panics. exact Hi.
Qed.

Theorem c10_status : forall show debug resolve m path resp,
  handle_request show debug resolve m path = Done resp ->
  (status resp = 200 \/ status resp = 400 \/ status resp = 404)%Z /\
  (status resp = 404%Z <-> m <> GET \/ forall t, path <> "/" ++ t).
Proof.
  intros. split; [eapply handle_other_status; eassumption | eapply handle_404; eassumption].
Qed.

Theorem c10_ok_iff : forall show resolve m path resp,
  handle_request show true resolve m path = Done resp ->
  (status resp = 200%Z <->
   m = GET /\ exists r rest, trailing rest /\ image_uri path r rest /\ resolve (identifier r) = true).
Proof. exact handle_200. Qed.

Example c10_example :
  handle_request (fun _ => "") true (fun i => String.eqb i "x") GET "/x/full/max/0/default.jpg"
    = Done (mkResponse 200 "OK") /\
  handle_request (fun _ => "") true (fun i => String.eqb i "x") GET "/x/full/max/361/default.jpg"
    = Done (mkResponse 400 "Rotation must be [0.0, 360.0], but was '361'.") /\
  handle_request (fun _ => "") true (fun i => String.eqb i "x") OtherMethod "/x/full/max/0/default.jpg"
    = Done (mkResponse 404 "notfound").
Proof. vm_compute. auto. Qed.
Print Assumptions c10_answered_refuted.
Print Assumptions c10_answered_iff.
Print Assumptions c10_status.
Print Assumptions c10_ok_iff.

(** ** C11 *)
Theorem c11_containment_refuted : exists show base path r,
  decode_image_request show true path = Done (Ok r) /\
  ~ inside (location base) (location (path_join base (identifier r))).
Proof.
  exists (fun _ => ""), "/srv/images", "/..%2Fsecret/full/max/0/default.jpg".
  eexists. split; [vm_compute; reflexivity |].
  intros [b H]. vm_compute in H. discriminate H.
Qed.

(** Any absolute file name is reachable, whatever the configured directory. *)
Theorem c11_any_file_reachable : forall show base t, utf8_text ("/" ++ t) ->
  exists path r, decode_image_request show true path = Done (Ok r) /\
                 path_join base (identifier r) = "/" ++ t.
Proof. exact any_file_reachable. Qed.

(** What does hold: relative identifiers without ".." components stay inside.
    Missing for the full property: the two excluded kinds of identifier, which
    the server should refuse. *)
Theorem c11_containment_partial : forall show base path r,
  decode_image_request show true path = Done (Ok r) ->
  (forall t, identifier r <> "/" ++ t) -> ~ In ".." (pieces (identifier r) "") ->
  inside (location base) (location (path_join base (identifier r))).
Proof. exact contained. Qed.

Example c11_example : location (path_join "/srv/images" "a/./b..c") = ["srv"; "images"; "a"; "b..c"]
  /\ location (path_join "/srv/images/" "../x") = ["srv"; "x"].
Proof. vm_compute. auto. Qed.
Print Assumptions c11_containment_refuted.
Print Assumptions c11_any_file_reachable.
Print Assumptions c11_containment_partial.

(** ** C12 *)
Theorem c12_body_once : forall b n,
  poll_frames (S n) (body_new b) = Some b :: repeat None n.
Proof. intros. apply poll_frames_new. Qed.

Example c12_example : poll_frames 3 (body_new "OK") = [Some "OK"; None; None].
Proof. reflexivity. Qed.
Print Assumptions c12_body_once.

(** ** C13 *)
Theorem c13_connection_limit : forall max l s,
  server_run (server_init max) l = Some s ->
  (List.length (serving s) <= max)%nat /\
  (avail s + List.length (serving s) = max)%nat /\
  Permutation (waiting s ++ serving s ++ finished s) (seq 0 (accepted s)) /\
  (server_step s EGrant = None <-> waiting s = [] \/ List.length (serving s) = max).
Proof. exact limit_holds. Qed.

Theorem c13_first_come_first_served : forall max l s c d,
  server_run (server_init max) l = Some s ->
  In c (serving s ++ finished s) -> In d (waiting s) -> (c < d)%nat.
Proof. exact fifo_order. Qed.

Example c13_example : server_run (server_init 2)
  [EAccept; EAccept; EGrant; EAccept; EGrant; EFinish 0; EGrant] =
  Some (mkServer true 0 [] [2; 1] [0] 3)%nat.
Proof. reflexivity. Qed.
Print Assumptions c13_connection_limit.
Print Assumptions c13_first_come_first_served.

(** ** C14 *)
Theorem c14_read_errors_reported_refuted : exists cap code,
  poll_read cap (TError code) = poll_read cap (TRead []).
Proof. exists 1024%nat, 104%nat. reflexivity. Qed.

(** Every read failure looks like end of stream; nothing is ever reported as an error. *)
Theorem c14_errors_look_like_eof : forall cap t,
  (forall code, poll_read cap t <> HError code) /\
  (forall code, t = TError code -> poll_read cap t = poll_read cap (TRead [])).
Proof. intros cap t. split; [destruct t; discriminate | intros code ->; reflexivity]. Qed.

(** Successful reads deliver exactly the transport's bytes. *)
Theorem c14_reads_deliver : forall cap bytes, poll_read cap (TRead bytes) = HRead bytes.
Proof. exact poll_read_bytes. Qed.
Print Assumptions c14_read_errors_reported_refuted.
Print Assumptions c14_errors_look_like_eof.
Print Assumptions c14_reads_deliver.

(** ** C39: accepted connections are not limited *)
Theorem c39_accepted_bounded_refuted : forall max n, exists l s,
  server_run (server_init max) l = Some s /\
  (List.length (waiting s) = n + max)%nat /\ serving s = [].
Proof.
  intros max n. destruct (accepts_run (n + max) (server_init max) eq_refl) as (s & Hr & _ & Hw & _).
  exists (repeat EAccept (n + max)), s. split; [exact Hr |].
  cbn [server_init waiting] in Hw. split; [simpl in Hw; lia |].
  assert (G : forall k s0 s1, server_run s0 (repeat EAccept k) = Some s1 -> serving s1 = serving s0).
  { induction k; intros s0 s1 H; cbn [repeat server_run] in H; [congruence |].
    cbn [server_step] in H. destruct (running s0); [| discriminate].
    apply IHk in H. exact H. }
  apply G in Hr. exact Hr.
Qed.
Print Assumptions c39_accepted_bounded_refuted.

(** ** C40: one failed connection stops the listener for good *)
Theorem c40_survives_bad_connection_refuted : forall max l s e,
  e = ELocalAddrError \/ e = EAcceptError ->
  server_run (server_init max) l = Some s -> running s = true ->
  exists s', server_step s e = Some s' /\
    forall l' s'', server_run s' l' = Some s'' -> accepted s'' = accepted s /\ server_step s'' EAccept = None.
Proof.
  intros max l s e He Hr Hrun.
  assert (Hs : server_step s e = Some (mkServer false (avail s) (waiting s) (serving s) (finished s) (accepted s))).
  { destruct He; subst e; cbn [server_step]; rewrite Hrun; reflexivity. }
  eexists. split; [exact Hs |]. intros l' s'' H. apply stopped_run in H; [| reflexivity].
  destruct H as [H1 H2]. split; [exact H2 |]. cbn [server_step]. rewrite H1. reflexivity.
Qed.
Example c40_example : exists s, server_run (server_init 1) [EAccept; EGrant] = Some s /\ running s = true.
Proof. eexists. split; [reflexivity | reflexivity]. Qed.
Print Assumptions c40_survives_bad_connection_refuted.
