(** What the segments of a custom component transform hold (ISO/IEC 15444-2, A.3),
    and the binary32 patterns of small integers (IEEE 754). *)

From Coq Require Import ZArith List.
Import ListNotations.
Local Open Scope Z_scope.

Definition w16 (v : Z) : list Z := [v / 256; v mod 256].
Definition w32 (v : Z) : list Z := [v / 2 ^ 24; (v / 2 ^ 16) mod 256; (v / 2 ^ 8) mod 256; v mod 256].
(** A segment: marker, length and body. *)
Definition segment_bytes (s : Z * list Z) : list Z := w16 (fst s) ++ w16 (Z.of_nat (length (snd s)) + 2) ++ snd s.

(** Pattern [b] means the integer [v]: v = (-1)^s * m * 2^(k-23). *)
Definition float_bits (v b : Z) : Prop :=
  (v = 0 /\ b = 0) \/
  (v <> 0 /\ exists k m, 0 <= k /\ 2 ^ 23 <= m < 2 ^ 24 /\ m * 2 ^ k = Z.abs v * 2 ^ 23 /\
     b = (if v <? 0 then 2 ^ 31 else 0) + (k + 127) * 2 ^ 23 + (m - 2 ^ 23)).

(** Component bit depths: a pair is (precision, signed?). *)
Definition cbd_body (comps : list (Z * Z)) : list Z :=
  w16 (Z.of_nat (length comps)) ++ map (fun c => 128 * snd c + (fst c - 1)) comps.
(** An array: its kind (1: decorrelation, 2: offset) and its element type (0: 16-bit and
    1: 32-bit signed integer, 2: binary32, 3: binary64) come before its index. *)
Definition mct_body (index kind elem : Z) (data : list Z) : list Z := w16 0 ++ [4 * elem + kind; index] ++ w16 0 ++ data.
(** One collection of the components 0 .. n-1 with two arrays, irreversible. *)
Definition mcc_body (index : Z) (n : nat) (deco off : Z) : list Z :=
  w16 0 ++ [index] ++ w16 0 ++ w16 1 ++ [1] ++ w16 (Z.of_nat n) ++ map Z.of_nat (seq 0 n) ++ w16 (Z.of_nat n) ++ map Z.of_nat (seq 0 n) ++ [0; off; deco].
(** One stage. *)
Definition mco_body (index : Z) : list Z := [1; index].

(** A transform with matrix [m] and offsets [o], both as patterns. *)
Definition group (m o : list Z) (comps : list (Z * Z)) : list (Z * list Z) :=
  [(65400, cbd_body comps); (65396, mct_body 1 1 2 (flat_map w32 m)); (65396, mct_body 2 2 2 (flat_map w32 o));
   (65397, mcc_body 3 (length comps) 1 2); (65399, mco_body 3)].
