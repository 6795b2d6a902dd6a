(** Model of the reversible component transform, openjp2-rs/src/mct.rs.

    The three planes are lists walked in step; the in-place update of position
    [i] reads only position [i]. Arithmetic is that of a release build: every
    operation goes through [wr], which is [i32] (wrapping). *)

From Coq Require Import ZArith List.
From Verif Require Import I32.
Import ListNotations.
Local Open Scope Z_scope.

(** mct.rs:83-91, loop body of [opj_mct_encode] on one pixel. *)
Definition rct_fwd (wr : Z -> Z) (p : Z * Z * Z) : Z * Z * Z :=
  let '(r, g, b) := p in
  (Z.shiftr (wr (wr (r + wr (g * 2)) + b)) 2, wr (b - g), wr (r - g)).

(** mct.rs:108-116, loop body of [opj_mct_decode]. *)
Definition rct_inv (wr : Z -> Z) (p : Z * Z * Z) : Z * Z * Z :=
  let '(y, u, v) := p in
  let g := wr (y - Z.shiftr (wr (u + v)) 2) in
  (wr (v + g), g, wr (u + g)).

(** mct.rs:73-94 and 99-119: the loops over all [n] pixels. *)
Definition mct_encode (pixels : list (Z * Z * Z)) := map (rct_fwd i32) pixels.
Definition mct_decode (pixels : list (Z * Z * Z)) := map (rct_inv i32) pixels.
