(** What a code-block coder has to do, after ITU-T T.800 Annex D, independently
    of the flag words and tables of t1.rs.

    A block is a [width] x [height] array; each coefficient has a magnitude and
    a sign. Bit-planes are coded from the top, each in up to three passes over
    the coefficients in stripes of four rows. *)

From Coq Require Import ZArith List Bool.
Import ListNotations.
Local Open Scope Z_scope.

(** The block: its size, sub-band (0 LL, 1 HL, 2 LH, 3 HH), whether contexts are
    vertically causal, magnitudes and signs at column, row. *)
Record block : Type := mkBlock {
  width : Z; height : Z; band : Z; causal : bool;
  magnitude : Z -> Z -> Z; negative : Z -> Z -> bool }.

(** Coding state: coefficients known to be significant, those refined at least
    once, those coded by the significance pass of the current plane, and the
    lowest plane coded so far. *)
Record state : Type := mkState {
  significant : Z -> Z -> bool; refined : Z -> Z -> bool; visited : Z -> Z -> bool; level : Z -> Z -> Z }.

Definition set {A} (f : Z -> Z -> A) (x y : Z) (v : A) : Z -> Z -> A :=
  fun x' y' => if (x' =? x) && (y' =? y) then v else f x' y'.
Definition set_significant (s : state) (x y : Z) : state :=
  mkState (set (significant s) x y true) (refined s) (visited s) (level s).
Definition set_refined (s : state) (x y : Z) : state :=
  mkState (significant s) (set (refined s) x y true) (visited s) (level s).
Definition set_visited (b : bool) (s : state) (x y : Z) : state :=
  mkState (significant s) (refined s) (set (visited s) x y b) (level s).
Definition set_level (p : Z) (s : state) (x y : Z) : state :=
  mkState (significant s) (refined s) (visited s) (set (level s) x y p).

(** Whether the neighbour at offset [(dx, dy)] counts as significant: those
    outside the block do not, and with vertically causal contexts neither do
    those of the next stripe. *)
Definition inside (B : block) (x y : Z) : bool := (0 <=? x) && (x <? width B) && (0 <=? y) && (y <? height B).
Definition seen (B : block) (s : state) (x y dx dy : Z) : bool :=
  inside B (x + dx) (y + dy) && significant s (x + dx) (y + dy)
  && negb (causal B && (y mod 4 =? 3) && (dy =? 1)).

Definition count (l : list bool) : Z := fold_right (fun (b : bool) n => (if b then 1 else 0) + n) 0 l.
Definition horizontal (B : block) (s : state) (x y : Z) : Z := count [seen B s x y (-1) 0; seen B s x y 1 0].
Definition vertical (B : block) (s : state) (x y : Z) : Z := count [seen B s x y 0 (-1); seen B s x y 0 1].
Definition diagonal (B : block) (s : state) (x y : Z) : Z :=
  count [seen B s x y (-1) (-1); seen B s x y 1 (-1); seen B s x y (-1) 1; seen B s x y 1 1].

(** Table D.1. *)
Definition zero_context_low (h v d : Z) : Z :=
  if h =? 2 then 8
  else if h =? 1 then (if 1 <=? v then 7 else if 1 <=? d then 6 else 5)
  else if v =? 2 then 4 else if v =? 1 then 3
  else if 2 <=? d then 2 else if d =? 1 then 1 else 0.
Definition zero_context_diag (hv d : Z) : Z :=
  if 3 <=? d then 8
  else if d =? 2 then (if 1 <=? hv then 7 else 6)
  else if d =? 1 then (if 2 <=? hv then 5 else if hv =? 1 then 4 else 3)
  else if 2 <=? hv then 2 else if hv =? 1 then 1 else 0.
Definition zero_context (orient h v d : Z) : Z :=
  if orient =? 1 then zero_context_low v h d
  else if orient =? 3 then zero_context_diag (h + v) d
  else zero_context_low h v d.
Definition context_of (B : block) (s : state) (x y : Z) : Z :=
  zero_context (band B) (horizontal B s x y) (vertical B s x y) (diagonal B s x y).

(** Tables D.2 and D.3: context and flip of the sign bit. *)
Definition contribution (B : block) (s : state) (x y dx dy : Z) : Z :=
  if seen B s x y dx dy then (if negative B (x + dx) (y + dy) then -1 else 1) else 0.
Definition clamp1 (v : Z) : Z := Z.max (-1) (Z.min 1 v).
Definition sign_table (h v : Z) : Z * Z :=
  if h =? 1 then (if v =? 1 then (13, 0) else if v =? 0 then (12, 0) else (11, 0))
  else if h =? 0 then (if v =? 1 then (10, 0) else if v =? 0 then (9, 0) else (10, 1))
  else (if v =? 1 then (11, 1) else if v =? 0 then (12, 1) else (13, 1)).
Definition sign_context (B : block) (s : state) (x y : Z) : Z * Z :=
  sign_table (clamp1 (contribution B s x y (-1) 0 + contribution B s x y 1 0))
             (clamp1 (contribution B s x y 0 (-1) + contribution B s x y 0 1)).

(** Table D.4. *)
Definition any_seen (B : block) (s : state) (x y : Z) : bool :=
  negb (horizontal B s x y + vertical B s x y + diagonal B s x y =? 0).
Definition refine_context (B : block) (s : state) (x y : Z) : Z :=
  if refined s x y then 16 else if any_seen B s x y then 15 else 14.

(** A step changes the state and emits context and bit pairs. *)
Definition step : Type := state -> state * list (Z * Z).
Fixpoint steps (l : list step) : step := fun s =>
  match l with
  | [] => (s, [])
  | f :: l => let '(s, o) := f s in let '(s, o') := steps l s in (s, o ++ o')
  end.

Definition bit_at (B : block) (p x y : Z) : Z := if Z.testbit (magnitude B x y) p then 1 else 0.
Definition sign_at (B : block) (x y : Z) : Z := if negative B x y then 1 else 0.

(** The sign of a coefficient that has become significant. *)
Definition code_sign (raw : bool) (B : block) (x y : Z) : step := fun s =>
  let '(cx, flip) := sign_context B s x y in
  (set_significant s x y, [(cx, if raw then sign_at B x y else Z.lxor (sign_at B x y) flip)]).

(** D.3.1: an insignificant coefficient in the significance or clean-up pass. *)
Definition code_zero (raw : bool) (B : block) (p x y : Z) : step := fun s =>
  let o := (context_of B s x y, bit_at B p x y) in
  let '(s, o') := if bit_at B p x y =? 1 then code_sign raw B x y s else (s, []) in
  (set_level p s x y, o :: o').

Definition significance_step (raw : bool) (B : block) (p x y : Z) : step := fun s =>
  if negb (significant s x y) && negb (visited s x y) && any_seen B s x y then
    let '(s, o) := code_zero raw B p x y s in (set_visited true s x y, o)
  else (s, []).

(** D.3.3. *)
Definition refinement_step (B : block) (p x y : Z) : step := fun s =>
  if significant s x y && negb (visited s x y) then
    (set_level p (set_refined s x y) x y, [(refine_context B s x y, bit_at B p x y)])
  else (s, []).

(** D.3.4. *)
Definition cleanup_step (B : block) (p x y : Z) : step := fun s =>
  if negb (significant s x y) && negb (visited s x y) then code_zero false B p x y s else (s, []).
Definition still (B : block) (s : state) (x y : Z) : bool :=
  negb (significant s x y) && negb (visited s x y) && negb (any_seen B s x y).
Fixpoint leading_zeros (B : block) (p x : Z) (ys : list Z) : nat :=
  match ys with
  | [] => 0
  | y :: ys => if bit_at B p x y =? 1 then 0 else S (leading_zeros B p x ys)
  end.
Definition cleanup_column (B : block) (p x : Z) (ys : list Z) : step := fun s =>
  let '(s, o) :=
    if (length ys =? 4)%nat && forallb (still B s x) ys then
      let n := leading_zeros B p x ys in
      let s := fold_left (fun s y => set_level p s x y) (firstn n ys) s in
      match skipn n ys with
      | [] => (s, [(17, 0)])
      | y :: ys =>
          let '(s, o) := code_sign false B x y s in
          let '(s, o') := steps (map (cleanup_step B p x) ys) (set_level p s x y) in
          (s, [(17, 1); (18, Z.of_nat n / 2); (18, Z.of_nat n mod 2)] ++ o ++ o')
      end
    else steps (map (cleanup_step B p x) ys) s in
  (fold_left (fun s y => set_visited false s x y) ys s, o).

(** D.1: stripes of four rows, columns in a stripe, rows in a column. *)
Definition upto (n : Z) : list Z := map Z.of_nat (seq 0 (Z.to_nat n)).
Definition rows (B : block) (k : Z) : list Z := map (fun i => 4 * k + i) (upto (Z.min 4 (height B - 4 * k))).
Definition columns (B : block) : list (Z * Z) :=
  flat_map (fun k => map (fun x => (k, x)) (upto (width B))) (upto ((height B + 3) / 4)).

Definition significance_pass (raw : bool) (B : block) (p : Z) : step :=
  steps (map (fun c => steps (map (significance_step raw B p (snd c)) (rows B (fst c)))) (columns B)).
Definition refinement_pass (B : block) (p : Z) : step :=
  steps (map (fun c => steps (map (refinement_step B p (snd c)) (rows B (fst c)))) (columns B)).
Definition cleanup_pass (B : block) (p : Z) : step :=
  steps (map (fun c => cleanup_column B p (snd c) (rows B (fst c))) (columns B)).

(** The pass of type 0, 1 or 2 in plane [p]. *)
Definition coding_pass (raw : bool) (B : block) (p type : Z) : step :=
  if type =? 0 then significance_pass raw B p
  else if type =? 1 then refinement_pass B p
  else cleanup_pass B p.

Definition initial (n : Z) : state := mkState (fun _ _ => false) (fun _ _ => false) (fun _ _ => false) (fun _ _ => n).

(** The value a decoder holds for a coefficient whose planes down to [q] are
    known, in half units: the middle of the interval, with [r] more fractional
    bits. *)
Definition known_value (r m : Z) (n : bool) (q : Z) : Z :=
  let v := Z.shiftr m q in
  if v =? 0 then 0 else (if n then -1 else 1) * ((v * 2 ^ (q + 1) + 2 ^ q) * 2 ^ r).
