(** What is needed to decode a window: positions of coefficients, from the
    standard (ITU-T T.800 B.5), without code. *)

From Coq Require Import ZArith List Bool.
From Verif Require Import Mem DwtModel GeomModel WindowModel.
Import ListNotations.
Local Open Scope Z_scope.

(** Equation B-15: a coordinate of the tile component seen from a sub-band of
    [nb] decompositions; [o] is 1 for the high-pass half. *)
Definition sb (o nb a : Z) : Z := (a - 2 ^ (nb - 1) * o + 2 ^ nb - 1) / 2 ^ nb.
Definition depth (n r : Z) : Z := if r =? 0 then n - 1 else n - r.

(** Where coefficient [u] of a band of resolution [r] is kept in a plane that
    holds the low-pass half of every resolution first. *)
Definition place (c : Z * Z) (n r o u : Z) : Z :=
  u - sb o (depth n r) (fst c) + (if o =? 1 then sb 0 (depth n r) (snd c) - sb 0 (depth n r) (fst c) else 0).

(** Coefficient [u] of a band is wanted for a window: it is at most two away
    from the window's projection. *)
Definition wanted (c win : Z * Z) (n r o u : Z) : Prop :=
  sb o (depth n r) (fst c) <= u < sb o (depth n r) (snd c) /\
  sb o (depth n r) (fst win) - 2 <= u < sb o (depth n r) (snd win) + 2.

Definition band_bits (r o p : Z) : Prop := if r =? 0 then o = 0 /\ p = 0 else (o = 0 \/ o = 1) /\ (p = 0 \/ p = 1) /\ o + p <> 0.

Definition inside_rect (b : rect) (u v : Z) : Prop := fst (fst b) <= u < snd (fst b) /\ fst (snd b) <= v < snd (snd b).

(** A block lies in its band and holds what the plane [F], with rows of [w]
    cells, holds there. *)
Definition block_ok (w : Z) (F : mem) (comp : rect) (n numres : Z) (b : dblock) : Prop :=
  let '(r, k, e, f) := (k_res b, k_band b, fst (k_rect b), snd (k_rect b)) in
  exists o p, k = o + 2 * p /\ 0 <= r < numres /\ band_bits r o p /\
  sb o (depth n r) (fst (fst comp)) <= fst e <= snd e /\ snd e <= sb o (depth n r) (snd (fst comp)) /\
  sb p (depth n r) (fst (snd comp)) <= fst f <= snd f /\ snd f <= sb p (depth n r) (snd (snd comp)) /\
  forall u v, inside_rect (e, f) u v ->
    k_data b ((v - fst f) * (snd e - fst e) + (u - fst e)) = F (place (snd comp) n r p v * w + place (fst comp) n r o u).

(** The blocks hold every wanted coefficient. *)
Definition cover (comp win : rect) (n numres : Z) (bs : list dblock) : Prop :=
  forall r o p u v, 0 <= r < numres -> band_bits r o p -> wanted (fst comp) (fst win) n r o u -> wanted (snd comp) (snd win) n r p v ->
    exists b, In b bs /\ k_res b = r /\ k_band b = o + 2 * p /\ inside_rect (k_rect b) u v.

(** The resolutions that are decoded, lowest first. *)
Definition lowest (comp : rect) (n numres : Z) : list DwtModel.rect :=
  map (fun r => DwtModel.res_rect (mkR (fst (fst comp)) (fst (snd comp)) (snd (fst comp)) (snd (snd comp))) (n - 1 - Z.of_nat r)) (seq 0 (Z.to_nat numres)).
