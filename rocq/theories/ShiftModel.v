(** Model of the DC level shift, openjp2-rs/src/tcd.rs and math.rs.

    Sample planes are memory; the data pointer of the code is an index into
    it. A plane of the irreversible path holds 32-bit floats in the same
    words; the float loops are modelled on one sample. Integer arithmetic is
    that of a release build: it wraps, and shift amounts are taken modulo 32. *)

From Coq Require Import ZArith List Bool.
From Verif Require Import I32 Ints Mem.
Local Open Scope Z_scope.

(** [1i32 << n] and [1u32 << n] of a release build. *)
Definition shl_i32 (n : Z) : Z := i32 (Z.shiftl 1 (n mod 32)).
Definition shl_u32 (n : Z) : Z := u32 (Z.shiftl 1 (n mod 32)).

(** j2k.rs:7519-7521 (encoder) and 1474-1484 (decoder): the default shift of
    a component; the field is 0 before. *)
Definition default_shift (sgnd prec : Z) : Z := if sgnd =? 0 then shl_i32 (u32 (prec - 1)) else 0.

(** math.rs:115-117, [Ord::clamp]; it panics when [lo > hi], which
    [c37_range_ok] excludes. *)
Definition clamp (a lo hi : Z) : Z := if a <? lo then lo else if hi <? a then hi else a.

(** tcd.rs:2474-2480: the output range of a component. *)
Definition range_of (sgnd prec : Z) : Z * Z :=
  if negb (sgnd =? 0) then
    (i32 (- shl_i32 (u32 (prec - 1))), i32 (shl_i32 (u32 (prec - 1)) - 1))
  else (0, i32 (u32 (shl_u32 prec - 1))).

(** tcd.rs:2659: encoder, reversible path, one sample. *)
Definition shift_enc (shift x : Z) : Z := i32 (x - shift).
(** tcd.rs:2488-2492: decoder, reversible path, one sample. *)
Definition shift_dec (shift lo hi x : Z) : Z := clamp (i32 (x + shift)) lo hi.

(** tcd.rs:2656-2662: encoder loop over [n] samples at the front of the plane;
    the state is the pointer and the memory. *)
Definition enc_plane (shift n : Z) (m : mem) : mem :=
  snd (for_to 0 n (fun _ '(p, m) => (p + 1, upd m p (shift_enc shift (m p)))) (0, m)).

(** tcd.rs:2482-2499: decoder loops over [h] rows of [w] samples, skipping
    [stride] samples after each row. *)
Definition dec_plane (shift lo hi w h stride : Z) (m : mem) : mem :=
  snd (for_to 0 h (fun _ s =>
         let '(p, m) := for_to 0 w (fun _ '(p, m) => (p + 1, upd m p (shift_dec shift lo hi (m p)))) s in
         (p + stride, m)) (0, m)).

(** Single-precision values: [Fin m e] stands for [m * 2^e]. *)
Inductive f32 := NaN | Inf (negative : bool) | Fin (m e : Z).

(** Nearest integer to [m / d], ties to even. *)
Definition div_rne (m d : Z) : Z :=
  let q := m / d in let r := m mod d in
  if 2 * r <? d then q else if d <? 2 * r then q + 1 else if Z.even q then q else q + 1.

(** [v as f32]: 24 significant bits, nearest, ties to even. *)
Definition f32_of_int (v : Z) : f32 :=
  if Z.abs v <=? 2 ^ 24 then Fin v 0 else let e := Z.log2 (Z.abs v) - 23 in Fin (div_rne v (2 ^ e)) e.

(** math.rs:105-107: [f.round_ties_even() as i64]; the cast saturates and
    sends NaN to 0. *)
Definition to_i64 (x : Z) : Z := clamp x (- 2 ^ 63) (2 ^ 63 - 1).
Definition lrintf (f : f32) : Z :=
  match f with
  | NaN => 0
  | Inf s => if s then - 2 ^ 63 else 2 ^ 63 - 1
  | Fin m e => to_i64 (if 0 <=? e then m * 2 ^ e else div_rne m (2 ^ (- e)))
  end.

(** Comparison with [2147483647 as c_float], which is 2^31, and with -2^31. *)
Definition gt_int (f : f32) (k : Z) : bool :=
  match f with NaN => false | Inf s => negb s | Fin m e => if 0 <=? e then k <? m * 2 ^ e else k * 2 ^ (- e) <? m end.
Definition lt_int (f : f32) (k : Z) : bool :=
  match f with NaN => false | Inf s => s | Fin m e => if 0 <=? e then m * 2 ^ e <? k else m <? k * 2 ^ (- e) end.

(** tcd.rs:2666-2667: encoder, irreversible path, one sample. *)
Definition shift_enc_f (shift x : Z) : f32 := f32_of_int (i32 (x - shift)).

(** tcd.rs:2506-2519: decoder, irreversible path, one sample. The 64-bit sum
    wraps like every other sum. *)
Definition i64 (x : Z) : Z := (x + 2 ^ 63) mod 2 ^ 64 - 2 ^ 63.
Definition shift_dec_f (shift lo hi : Z) (f : f32) : Z :=
  if gt_int f (2 ^ 31) then hi
  else if lt_int f (- 2 ^ 31) then lo
  else i32 (clamp (i64 (lrintf f + shift)) lo hi).
