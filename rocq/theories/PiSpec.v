(** What a packet sequence should be: ISO 15444-1 B.6, B.12. *)

From Coq Require Import ZArith List Bool Sorted.
From Verif Require Import PiModel.
Import ListNotations.
Local Open Scope Z_scope.

(** A tile: extent, number of layers, coding parameters of its components. *)
Record tile := mkTile { t_x0 : Z; t_y0 : Z; t_x1 : Z; t_y1 : Z; t_layers : Z; t_comps : list params }.

Definition cdiv (a b : Z) : Z := (a + b - 1) / b.

(** Decomposition levels above resolution [r], and its precinct exponents. *)
Definition nres (p : params) : Z := Z.of_nat (length (exps p)).
Definition level (p : params) (r : Z) : Z := nres p - 1 - r.
Definition ex (p : params) (r : Z) : Z := fst (nth (Z.to_nat r) (exps p) (0, 0)).
Definition ey (p : params) (r : Z) : Z := snd (nth (Z.to_nat r) (exps p) (0, 0)).
Definition par (T : tile) (c : Z) : params := nth (Z.to_nat c) (t_comps T) (mkParams 1 1 []).

(** B-15, B-16: the number of precincts along an axis, for tile extent [t0, t1),
    one sample of the resolution covering [D] of the reference grid and one
    precinct [P] samples. *)
Definition spans (t0 t1 D P : Z) : Z :=
  let r0 := cdiv t0 D in let r1 := cdiv t1 D in
  if r0 <? r1 then cdiv r1 P - r0 / P else 0.

(** Where, on the reference grid, the [i]-th of them is reached by a scan of the
    tile: at its upper left corner, or at the edge of the tile. *)
Definition anchor (t0 D P i : Z) : Z := Z.max t0 ((cdiv t0 D / P + i) * P * D).

Definition wide (T : tile) (c r : Z) : Z :=
  let p := par T c in spans (t_x0 T) (t_x1 T) (sx p * 2 ^ level p r) (2 ^ ex p r).
Definition high (T : tile) (c r : Z) : Z :=
  let p := par T c in spans (t_y0 T) (t_y1 T) (sy p * 2 ^ level p r) (2 ^ ey p r).
Definition px (T : tile) (c r k : Z) : Z :=
  let p := par T c in anchor (t_x0 T) (sx p * 2 ^ level p r) (2 ^ ex p r) (k mod wide T c r).
Definition py (T : tile) (c r k : Z) : Z :=
  let p := par T c in anchor (t_y0 T) (sy p * 2 ^ level p r) (2 ^ ey p r) (k / wide T c r).

(** The packets of the tile, and those of a progression volume. *)
Definition valid (T : tile) (q : packet) : Prop :=
  let '(l, r, c, k) := q in
  0 <= l < t_layers T /\ 0 <= c < Z.of_nat (length (t_comps T)) /\ 0 <= r < nres (par T c) /\
  0 <= k < wide T c r * high T c r.
Definition within (T : tile) (v : volume) (q : packet) : Prop :=
  valid T q /\ let '(l, r, c, k) := q in
  l < v_lay1 v /\ v_res0 v <= r < v_res1 v /\ v_comp0 v <= c < v_comp1 v.

(** B.12.1: packets are ordered lexicographically by these keys. *)
Definition key (T : tile) (o : order) (q : packet) : list Z :=
  let '(l, r, c, k) := q in
  match o with
  | LRCP => [l; r; c; k]
  | RLCP => [r; l; c; k]
  | RPCL => [r; py T c r k; px T c r k; c; l]
  | PCRL => [py T c r k; px T c r k; c; r; l]
  | CPRL => [c; py T c r k; px T c r k; r; l]
  end.
Fixpoint lexlt (a b : list Z) : Prop :=
  match a, b with
  | x :: a, y :: b => x < y \/ (x = y /\ lexlt a b)
  | _, _ => False
  end.
Definition ordered (T : tile) (o : order) (l : list packet) : Prop :=
  StronglySorted (fun p q => lexlt (key T o p) (key T o q)) l.

Definition resolution (T : tile) (c r : Z) : Prop :=
  0 <= c < Z.of_nat (length (t_comps T)) /\ 0 <= r < nres (par T c).

(** Tiles as the codestream can describe them, with the table of packets
    fitting a u32. *)
Definition wf (T : tile) : Prop :=
  0 <= t_x0 T < t_x1 T /\ t_x1 T < 2 ^ 31 /\ 0 <= t_y0 T < t_y1 T /\ t_y1 T < 2 ^ 31 /\ 0 <= t_layers T < 2 ^ 16 /\
  1 <= Z.of_nat (length (t_comps T)) <= 2 ^ 14 /\
  Forall (fun p => 1 <= sx p <= 255 /\ 1 <= sy p <= 255 /\ 1 <= nres p <= 33 /\
                   Forall (fun e => 0 <= fst e <= 15 /\ 0 <= snd e <= 15) (exps p)) (t_comps T) /\
  exists R M, (forall c, 0 <= c < Z.of_nat (length (t_comps T)) -> nres (par T c) <= R) /\
    (forall c r, resolution T c r -> wide T c r * high T c r <= M) /\
    (t_layers T + 1) * (R * (Z.of_nat (length (t_comps T)) * M)) < 2 ^ 32.

Definition volume_ok (T : tile) (v : volume) : Prop :=
  0 <= v_res0 v /\ v_res1 v < 2 ^ 32 /\ 0 <= v_comp0 v < Z.of_nat (length (t_comps T)) /\
  v_comp1 v <= Z.of_nat (length (t_comps T)).

(** The distance, on the reference grid, of the precincts of a resolution. *)
Definition gap_x (T : tile) (c r : Z) : Z := let p := par T c in sx p * 2 ^ (ex p r + level p r).
Definition gap_y (T : tile) (c r : Z) : Z := let p := par T c in sy p * 2 ^ (ey p r + level p r).
(** One of the distances divides all of them, and fits a u32. *)
Definition regular (T : tile) (gap : tile -> Z -> Z -> Z) : Prop :=
  exists c r, resolution T c r /\ gap T c r < 2 ^ 32 /\ forall c' r', resolution T c' r' -> (gap T c r | gap T c' r').

(** All distances fit a u32. *)
Definition narrow (T : tile) : Prop :=
  forall c r, resolution T c r -> gap_x T c r < 2 ^ 32 /\ gap_y T c r < 2 ^ 32.

(** What each order needs. *)
Definition order_ok (T : tile) (o : order) : Prop :=
  match o with
  | LRCP | RLCP => True
  | RPCL => regular T gap_x /\ regular T gap_y
  | PCRL => regular T gap_x /\ regular T gap_y /\ narrow T
  | CPRL => narrow T
  end.

(** Progressions one after the other: each contributes, in its order, the
    packets of its volume not contributed before. *)
Inductive sequence (T : tile) : list packet -> list volume -> list (list packet) -> Prop :=
| sequence_nil : forall done, sequence T done [] []
| sequence_cons : forall done v vs part parts,
    ordered T (v_order v) part ->
    (forall q, In q part <-> within T v q /\ ~ In q done) ->
    sequence T (done ++ part) vs parts ->
    sequence T done (v :: vs) (part :: parts).

(** Progressions without a common packet. *)
Definition disjoint (T : tile) (vs : list volume) : Prop :=
  ForallOrdPairs (fun v w => forall q, ~ (within T v q /\ within T w q)) vs.
(** Progressions whose last layers do not increase. *)
Definition layers_descend (vs : list volume) : Prop :=
  StronglySorted (fun v w => v_lay1 w <= v_lay1 v) vs.
