(** Model of the tile geometry set up by [opj_tcd_init_tile],
    openjp2-rs/src/tcd.rs:789-1374, and of the size checks of
    [opj_j2k_read_siz], j2k.rs:1256-1400, in a release build.

    The horizontal and the vertical computations of the code are textually the
    same; each is modelled once, as a function of one axis. Allocation, tag
    trees and step sizes are left out. [None] is the error return (or, for
    [int_ceildiv], a panic). *)

From Coq Require Import ZArith List Bool.
From Verif Require Import I32 Ints MathModel.
Import ListNotations.
Local Open Scope Z_scope.

(** [a << b] on i32 and u32. *)
Definition shl_i32 (a b : Z) : Z := i32 (Z.shiftl a (b mod 32)).
Definition shl_u32 (a b : Z) : Z := u32 (Z.shiftl a (b mod 32)).
Definition shr_i32 (a b : Z) : Z := Z.shiftr a (b mod 32).

(** j2k.rs:1256-1293 and 1384: the checks on one axis (image extent [i0, i1),
    tile origin [t0], tile size [td]) and the number of tiles. *)
Definition siz_axis (i0 i1 t0 td : Z) : option Z :=
  if i1 <=? i0 then None
  else if td =? 0 then None
  else if (i0 <? t0) || (uint_adds t0 td <=? i0) then None
  else uint_ceildiv (u32 (i1 - t0)) td.

(** j2k.rs:1386-1399: both axes. *)
Definition siz_tiles (ix iy : Z * Z) (tx ty : Z * Z) : option (Z * Z) :=
  match siz_axis (fst ix) (snd ix) (fst tx) (snd tx), siz_axis (fst iy) (snd iy) (fst ty) (snd ty) with
  | Some tw, Some th => if (tw =? 0) || (th =? 0) || (65535 / th <? tw) then None else Some (tw, th)
  | _, _ => None
  end.

(** tcd.rs:847-857 (and 858-866): extent of tile column (row) [p]. *)
Definition tile_axis (i0 i1 t0 td p : Z) : option (Z * Z) :=
  let a := u32 (t0 + u32 (p * td)) in
  let lo := i32 (Z.max a i0) in
  let hi := i32 (Z.min (uint_adds a td) i1) in
  if (lo <? 0) || (hi <=? lo) then None else Some (lo, hi).

(** tcd.rs:843-844, 847-866: the rectangle of tile [no]; x extent, y extent. *)
Definition tile_rect (ix iy tx ty : Z * Z) (tw no : Z) : option ((Z * Z) * (Z * Z)) :=
  let p := no mod tw in let q := no / tw in
  match tile_axis (fst ix) (snd ix) (fst tx) (snd tx) p, tile_axis (fst iy) (snd iy) (fst ty) (snd ty) q with
  | Some x, Some y => Some (x, y)
  | _, _ => None
  end.

(** tcd.rs:879-882: the tile on a component with subsampling [d]. *)
Definition comp_axis (e : Z * Z) (d : Z) : option (Z * Z) :=
  match int_ceildiv (fst e) (i32 d), int_ceildiv (snd e) (i32 d) with
  | Some a, Some b => Some (a, b)
  | _, _ => None
  end.

(** tcd.rs:966-969: resolution with [l] levels above it. *)
Definition res_axis (c : Z * Z) (l : Z) : Z * Z := (int_ceildivpow2 (fst c) l, int_ceildivpow2 (snd c) l).

(** tcd.rs:972-1007: start of the first precinct and number of precincts. *)
Definition prec_axis (r : Z * Z) (pd : Z) : option (Z * Z) :=
  let start := shl_i32 (int_floordivpow2 (fst r) pd) pd in
  let tmp := shl_u32 (u32 (int_ceildivpow2 (snd r) pd)) pd in
  if 2147483647 <? tmp then None
  else Some (start, if fst r =? snd r then 0 else u32 (shr_i32 (i32 (i32 tmp - start)) pd)).

(** tcd.rs:1024-1055: start and exponent of the code-block group (the
    precinct, seen from the band). *)
Definition group_axis (resno start pd : Z) : Z * Z :=
  if resno =? 0 then (start, pd) else (int_ceildivpow2 start 1, u32 (pd - 1)).

(** tcd.rs:1063-1091: extent of a band; [o] is 1 for the high-pass half. *)
Definition band_axis (resno : Z) (c : Z * Z) (l o : Z) : Z * Z :=
  if resno =? 0 then (int_ceildivpow2 (fst c) l, int_ceildivpow2 (snd c) l)
  else (int64_ceildivpow2 (i64 (fst c - i64 (Z.shiftl o (l mod 64)))) (u32 (l + 1)),
        int64_ceildivpow2 (i64 (snd c - i64 (Z.shiftl o (l mod 64)))) (u32 (l + 1))).

(** tcd.rs:1072-1076: offsets of band [bandno]+1 of a higher resolution. *)
Definition band_offsets (bandno : Z) : Z * Z := (Z.land (bandno + 1) 1, Z.shiftr (bandno + 1) 1).

(** tcd.rs:1168-1189: extent of precinct [k] in the band. *)
Definition precinct_axis (g e : Z) (b : Z * Z) (k : Z) : Z * Z :=
  let s := i32 (g + i32 (i32 k * shl_i32 1 e)) in
  (Z.max s (fst b), Z.min (i32 (s + shl_i32 1 e)) (snd b)).

(** tcd.rs:1193-1217: first code-block and number of code-blocks. *)
Definition blocks_axis (p : Z * Z) (ce : Z) : Z * Z :=
  let tl := shl_i32 (int_floordivpow2 (fst p) ce) ce in
  let br := shl_i32 (int_ceildivpow2 (snd p) ce) ce in
  (tl, u32 (shr_i32 (i32 (br - tl)) ce)).

(** tcd.rs:1303-1340: extent of code-block [k]. *)
Definition block_axis (p : Z * Z) (tl ce k : Z) : Z * Z :=
  let s := i32 (tl + i32 (i32 k * shl_i32 1 ce)) in
  (Z.max s (fst p), Z.min (i32 (s + shl_i32 1 ce)) (snd p)).

Definition rect : Type := (Z * Z) * (Z * Z).
Record precinct := mkPrec { prect : rect; cw : Z; ch : Z; cblks : list rect }.

Definition upto (n : Z) : list Z := map Z.of_nat (seq 0 (Z.to_nat n)).

Fixpoint all_some {A} (l : list (option A)) : option (list A) :=
  match l with
  | [] => Some []
  | None :: _ => None
  | Some a :: l => match all_some l with Some l => Some (a :: l) | None => None end
  end.

(** Coding parameters of a component at one resolution: precinct exponents
    [prcw[resno]], [prch[resno]] and code-block exponents. *)
Record coding := mkCoding { pdx : Z; pdy : Z; cblkw : Z; cblkh : Z }.

(** tcd.rs:1162-1345: precinct number [no] of a band. [size] is the size of
    the code-block structure. *)
Definition make_precinct (size resno startx starty pw : Z) (c : coding) (band : rect) (no : Z) : option precinct :=
  let '(gx, ex) := group_axis resno startx (pdx c) in
  let '(gy, ey) := group_axis resno starty (pdy c) in
  let cx := Z.min (cblkw c) ex in let cy := Z.min (cblkh c) ey in
  let px := precinct_axis gx ex (fst band) (no mod pw) in
  let py := precinct_axis gy ey (snd band) (no / pw) in
  let '(tlx, w) := blocks_axis px cx in let '(tly, h) := blocks_axis py cy in
  let n := u32 (w * h) in
  if (2 ^ 32 - 1) / size <? n then None
  else Some (mkPrec (px, py) w h (map (fun k => (block_axis px tlx cx (k mod w), block_axis py tly cy (k / w))) (upto n))).

(** tcd.rs:1008-1023 and the precinct loop: all precincts of a band.
    [psize] is the size of the precinct structure. *)
Definition make_band (psize size resno : Z) (c : coding) (res band : rect) : option (list precinct) :=
  match prec_axis (fst res) (pdx c), prec_axis (snd res) (pdy c) with
  | Some (sx, pw), Some (sy, ph) =>
      if negb (pw =? 0) && ((2 ^ 32 - 1) / pw <? ph) then None
      else let n := u32 (pw * ph) in
      if (2 ^ 32 - 1) / psize <? n then None
      else all_some (map (make_precinct size resno sx sy pw c band) (upto n))
  | _, _ => None
  end.

(** tcd.rs:958-1091: band [bandno] of resolution [resno] of a tile component
    with [n] resolutions. *)
Definition band_rect (comp : rect) (n resno bandno : Z) : rect :=
  let l := n - 1 - resno in let '(ox, oy) := band_offsets bandno in
  (band_axis resno (fst comp) l ox, band_axis resno (snd comp) l oy).
Definition res_rect (comp : rect) (n resno : Z) : rect :=
  (res_axis (fst comp) (n - 1 - resno), res_axis (snd comp) (n - 1 - resno)).
Definition band_precincts (psize size : Z) (c : coding) (comp : rect) (n resno bandno : Z) : option (list precinct) :=
  make_band psize size resno c (res_rect comp n resno) (band_rect comp n resno bandno).
