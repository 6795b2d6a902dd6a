(** Model of the packing of tile samples into bytes and back:
    [opj_j2k_get_tile_data] (j2k.rs:12413-12533), [opj_get_tile_dimensions]
    (j2k.rs:12373-12411), [opj_tcd_copy_tile_data] (tcd.rs:2854-2917),
    [opj_tcd_get_encoder_input_buffer_size] (tcd.rs:2609-2636) and
    [opj_tcd_get_decoded_tile_size] (tcd.rs:1506-1573).

    [None] is a panic. A byte is a number in 0..255. The byte order of the
    machine ([to_ne_bytes]) is a parameter. *)

From Coq Require Import ZArith List Bool.
From Verif Require Import I32 Ints MathModel.
Import ListNotations.
Local Open Scope Z_scope.

(** j2k.rs:12388-12395, tcd.rs:2617-2625, 2866-2876: bytes per sample. *)
Definition size_comp (prec : Z) : Z :=
  let s := Z.shiftr prec 3 in
  let s := if Z.land prec 7 =? 0 then s else u32 (s + 1) in
  if s =? 3 then 4 else s.

(** Casts of an i32. *)
Definition as_u8 (x : Z) : Z := x mod 256.
Definition as_i8 (x : Z) : Z := (x + 128) mod 256 - 128.
Definition as_i16 (x : Z) : Z := (x + 2 ^ 15) mod 2 ^ 16 - 2 ^ 15.

(** [to_ne_bytes] of an n-byte integer and [from_ne_bytes] (unsigned). *)
Fixpoint le_bytes (n : nat) (x : Z) : list Z :=
  match n with O => [] | S n => as_u8 x :: le_bytes n (x / 256) end.
Definition ne_bytes (big : bool) (n : nat) (x : Z) : list Z := if big then rev (le_bytes n x) else le_bytes n x.
Fixpoint le_value (l : list Z) : Z := match l with [] => 0 | b :: l => b + 256 * le_value l end.
Definition from_ne (big : bool) (l : list Z) : Z := le_value (if big then rev l else l).

(** j2k.rs:12456-12527: one sample. *)
Definition pack1 (big : bool) (sz sgnd v : Z) : list Z :=
  if sz =? 1 then (if sgnd =? 0 then [as_u8 (Z.land v 255)] else [as_u8 (as_i8 v)])
  else if sz =? 2 then (if sgnd =? 0 then ne_bytes big 2 (as_i16 (Z.land v 65535)) else ne_bytes big 2 (as_i16 v))
  else ne_bytes big 4 v.

(** tcd.rs:2881-2911: one sample. The source is a [u8] or [u16] for signed
    components too. *)
Definition unpack1 (big : bool) (sz sgnd : Z) (bs : list Z) : Z :=
  if sz =? 1 then (if sgnd =? 0 then Z.land (nth 0 bs 0) 255 else nth 0 bs 0)
  else if sz =? 2 then (if sgnd =? 0 then Z.land (from_ne big bs) 65535 else from_ne big bs)
  else i32 (from_ne big bs).

Definition upto (n : Z) : list Z := map Z.of_nat (seq 0 (Z.to_nat n)).

(** A component of the tile: precision, signedness, size, samples skipped
    after each row of the source, and the samples from the tile's first one. *)
Record plane := mkPlane { prec : Z; sgnd : Z; pw : Z; ph : Z; pstride : Z; src : Z -> Z }.

(** j2k.rs:12452-12530, one component: the bytes written and the rest of the
    buffer. [chunks_exact(0)] panics, and so does [split_at] beyond the end;
    other sample sizes are skipped. *)
Definition get_plane (big : bool) (p : plane) (dest : list Z) : option (list Z * list Z) :=
  let sz := size_comp (prec p) in
  if (sz =? 1) || (sz =? 2) || (sz =? 4) then
    let n := Z.to_nat (pw p * ph p * sz) in
    if (length dest <? n)%nat then None
    else if pw p =? 0 then None
    else Some (flat_map (fun j => flat_map (fun i => pack1 big sz (sgnd p) (src p (j * (pw p + pstride p) + i))) (upto (pw p))) (upto (ph p)),
               skipn n dest)
  else Some ([], dest).

(** The loop over components; the result is the whole buffer. *)
Fixpoint get_tile (big : bool) (ps : list plane) (dest : list Z) : option (list Z) :=
  match ps with
  | [] => Some dest
  | p :: ps => match get_plane big p dest with
               | Some (out, rest) => option_map (app out) (get_tile big ps rest)
               | None => None
               end
  end.

(** tcd.rs:2609-2636. *)
Definition input_size (ps : list plane) : Z :=
  fold_left (fun a p => u64 (a + u64 (size_comp (prec p) * u64 (pw p * ph p)))) ps 0.

(** [chunks_exact(n)] over [k] chunks. *)
Fixpoint chunks (n k : nat) (l : list Z) : list (list Z) :=
  match k with O => [] | S k => firstn n l :: chunks n k (skipn n l) end.

(** tcd.rs:2878-2913, one component: the samples stored and the rest of the
    bytes. [None] in the samples: the plane is left as it was. *)
Definition copy_plane (big : bool) (p : plane) (bytes : list Z) : option (option (list Z) * list Z) :=
  let sz := size_comp (prec p) in
  if (sz =? 1) || (sz =? 2) || (sz =? 4) then
    let n := Z.to_nat (pw p * ph p) in
    let k := (n * Z.to_nat sz)%nat in
    if (length bytes <? k)%nat then None
    else Some (Some (map (unpack1 big sz (sgnd p)) (chunks (Z.to_nat sz) n (firstn k bytes))), skipn k bytes)
  else Some (None, bytes).

Fixpoint copy_planes (big : bool) (ps : list plane) (bytes : list Z) : option (list (option (list Z))) :=
  match ps with
  | [] => Some []
  | p :: ps => match copy_plane big p bytes with
               | Some (out, rest) => option_map (cons out) (copy_planes big ps rest)
               | None => None
               end
  end.

(** tcd.rs:2854-2864: the size check; [Some None] is the error return. *)
Definition copy_tile (big : bool) (ps : list plane) (bytes : list Z) : option (option (list (option (list Z)))) :=
  if input_size ps =? Z.of_nat (length bytes) then option_map Some (copy_planes big ps bytes) else Some None.

(** j2k.rs:12397-12411 [opj_get_tile_dimensions]: width of an image row,
    samples to skip, and offset of the tile's first sample. [ix0], [ix1],
    [iy0] bound the image, [tx0], [tx1], [ty0] the tile component. *)
Definition tile_dimensions (ix0 ix1 iy0 dx dy tx0 tx1 ty0 : Z) : option (Z * Z * Z) :=
  match uint_ceildiv ix0 dx, uint_ceildiv iy0 dy, uint_ceildiv (u32 (ix1 - ix0)) dx with
  | Some ox, Some oy, Some iw =>
      Some (iw, u32 (iw - u32 (tx1 - tx0)), u32 (u32 (tx0 - ox) + u32 (u32 (ty0 - oy) * iw)))
  | _, _, _ => None
  end.

(** tcd.rs:1520-1570: size of a decoded component of [w] x [h] samples added
    to [acc]; the inner [None] is the error value. [wrapping_div] panics on 0. *)
Definition decoded_size_step (prec w h acc : Z) : option (option Z) :=
  let sz := size_comp prec in
  if (0 <? h) && (w =? 0) then None
  else if (0 <? h) && ((2 ^ 32 - 1) / w <? h) then Some None
  else let t := u32 (w * h) in
  if negb (sz =? 0) && ((2 ^ 32 - 1) / sz <? t) then Some None
  else let t := u32 (t * sz) in
  if (2 ^ 32 - 1) - acc <? t then Some None else Some (Some (u32 (acc + t))).
