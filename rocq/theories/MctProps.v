(** C23: the reversible colour transform. *)

From Coq Require Import ZArith List Lia.
From Verif Require Import I32 MctModel.
Import ListNotations.
Local Open Scope Z_scope.
Ltac Zify.zify_post_hook ::= Z.div_mod_to_equations.

(** Samples of up to 30 bits, signed. *)
Definition small_pixel (p : Z * Z * Z) : Prop :=
  let '(r, g, b) := p in
  - 2 ^ 29 <= r < 2 ^ 29 /\ - 2 ^ 29 <= g < 2 ^ 29 /\ - 2 ^ 29 <= b < 2 ^ 29.

(** The transform as the standard gives it (Annex G.2). *)
Definition rct_spec (p : Z * Z * Z) : Z * Z * Z := let '(r, g, b) := p in ((r + 2 * g + b) / 4, b - g, r - g).

Lemma fwd_exact : forall p, small_pixel p -> rct_fwd i32 p = rct_spec p.
Proof.
  intros [[r g] b] (Hr & Hg & Hb). unfold rct_fwd, rct_spec. rewrite Z.shiftr_div_pow2 by lia.
  change (2 ^ 2) with 4. change (2 ^ 29) with 536870912 in *.
  rewrite (i32_id (g * 2)), (i32_id (r + g * 2)), (i32_id (r + g * 2 + b)), (i32_id (b - g)), (i32_id (r - g))
    by (unfold in_i32; lia).
  replace (g * 2) with (2 * g) by lia. reflexivity.
Qed.

Lemma inv_exact : forall p, small_pixel p -> rct_inv i32 (rct_spec p) = p.
Proof.
  intros [[r g] b] (Hr & Hg & Hb). unfold rct_inv, rct_spec. rewrite Z.shiftr_div_pow2 by lia.
  change (2 ^ 2) with 4. change (2 ^ 29) with 536870912 in *. change (2 ^ 31) with 2147483648 in *.
  rewrite (i32_id (b - g + (r - g))) by (unfold in_i32; lia).
  assert (E : (r + 2 * g + b) / 4 - (b - g + (r - g)) / 4 = g) by lia.
  rewrite E. rewrite (i32_id g) by (unfold in_i32; lia).
  rewrite !i32_id by (unfold in_i32; lia). f_equal; [f_equal |]; lia.
Qed.

(** The planes hold the standard's transform, and decoding restores them. *)
Theorem c23_lossless : forall pixels, Forall small_pixel pixels ->
  mct_encode pixels = map rct_spec pixels /\ mct_decode (mct_encode pixels) = pixels.
Proof.
  intros pixels H. assert (E : mct_encode pixels = map rct_spec pixels).
  { unfold mct_encode. apply map_ext_in. intros p Hp. rewrite Forall_forall in H. apply fwd_exact, H, Hp. }
  split; [exact E |]. rewrite E. unfold mct_decode. rewrite map_map. rewrite <- map_id. apply map_ext_in.
  intros p Hp. rewrite Forall_forall in H. apply inv_exact, H, Hp.
Qed.

(** No intermediate result leaves the 32-bit range (so a debug build does not
    panic): the formulas agree with those without wrapping, and dropping any
    one of the wraps changes nothing. *)
Theorem c23_no_overflow : forall p, small_pixel p ->
  let '(r, g, b) := p in let '(y, u, v) := rct_spec p in
  in_i32 (g * 2) /\ in_i32 (r + g * 2) /\ in_i32 (r + g * 2 + b) /\ in_i32 (b - g) /\ in_i32 (r - g) /\
  in_i32 (u + v) /\ in_i32 (y - (u + v) / 4) /\ in_i32 (v + (y - (u + v) / 4)) /\ in_i32 (u + (y - (u + v) / 4)).
Proof.
  intros [[r g] b] (Hr & Hg & Hb). unfold rct_spec, in_i32. change (2 ^ 29) with 536870912 in *.
  change (2 ^ 31) with 2147483648 in *.
  assert (E : (r + 2 * g + b) / 4 - (b - g + (r - g)) / 4 = g) by lia. rewrite E. lia.
Qed.

Example c23_example : mct_encode [(255, 0, 128); (-7, 3, 100)] = [(95, 128, 255); (24, 97, -10)] /\
  mct_decode [(95, 128, 255); (24, 97, -10)] = [(255, 0, 128); (-7, 3, 100)].
Proof. split; reflexivity. Qed.

(** Wrapping does not save larger samples: already one 31-bit green sample
    is lost. *)
Theorem c23_wrapping_refuted : exists p, (let '(r, g, b) := p in in_i32 r /\ in_i32 g /\ in_i32 b /\ r = 0 /\ b = 0) /\
  mct_decode (mct_encode [p]) <> [p].
Proof. exists (0, 2 ^ 30, 0). split; [repeat split; lia |]. vm_compute. discriminate. Qed.

Print Assumptions c23_lossless.
Print Assumptions c23_no_overflow.
Print Assumptions c23_wrapping_refuted.
