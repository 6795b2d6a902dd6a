(** Model of [opj_j2k_update_image_data], openjp2-rs/src/j2k.rs:9537-9765: the
    decoded samples of a tile are copied to their place in the output image.

    One component; the loop over components repeats it. [Panic] is a failed
    assertion, [Fail] the error return. A fresh allocation holds arbitrary
    words ([junk]); allocation itself succeeds. *)

From Coq Require Import ZArith List Bool.
From Verif Require Import I32 Ints Mem MathModel.
Local Open Scope Z_scope.

Inductive result (A : Type) := Panic | Fail | Done (a : A).
Arguments Panic {A}. Arguments Fail {A}. Arguments Done {A} a.

(** j2k.rs:9633-9653 (x) and 9654-9674 (y): where the overlap starts in the
    output, in the tile, its width, and what is left of the tile after it. *)
Definition copy_axis (d0 w r0 r1 : Z) : Z * Z * Z * Z :=
  let d1 := u32 (d0 + w) in
  let ws := u32 (i32 (r1 - r0)) in
  if d0 <? u32 r0 then
    let start := u32 (u32 r0 - d0) in
    if u32 r1 <=? d1 then (start, 0, ws, 0)
    else let wd := u32 (d1 - u32 r0) in (start, 0, wd, i32 (u32 (ws - wd)))
  else
    let off := i32 (i32 d0 - r0) in
    if u32 r1 <=? d1 then (0, off, u32 (ws - u32 off), 0)
    else (0, off, w, i32 (r1 - i32 d1)).

(** j2k.rs:9744-9758: the copy, row by row. *)
Definition copy_rows (w stride od os wd hd : Z) (src dst : mem) : mem :=
  for_to 0 hd (fun j m => for_to 0 wd (fun i m => upd m (od + j * w + i) (src (os + j * stride + i))) m) dst.

(** The output component: origin on its own grid, reduction factor, size and
    samples (null at first). *)
Record output := mkOutput { ox0 : Z; oy0 : Z; factor : Z; ow : Z; oh : Z; odata : option mem }.

(** The decoded tile component: bounds at the decoded resolution, row length
    of the buffer, and the buffer (null if the component was not decoded). *)
Record tilecomp := mkTile { rx0 : Z; rx1 : Z; ry0 : Z; ry1 : Z; stride : Z; tdata : option mem }.

Definition update_image (junk : mem) (o : output) (t : tilecomp) : result (option mem) :=
  match tdata t with
  | None => Done (odata o)
  | Some src =>
      let x0 := uint_ceildivpow2 (ox0 o) (factor o) in
      let y0 := uint_ceildivpow2 (oy0 o) (factor o) in
      if (rx0 t <? 0) || (rx1 t <? 0) then Panic
      else
        let '(sx, offx0, wd, offx1) := copy_axis x0 (ow o) (rx0 t) (rx1 t) in
        let '(sy, offy0, hd, offy1) := copy_axis y0 (oh o) (ry0 t) (ry1 t) in
        if (offx0 <? 0) || (offy0 <? 0) || (offx1 <? 0) || (offy1 <? 0) then Fail
        else if (i32 wd <? 0) || (i32 hd <? 0) then Fail
        else
          let os := u64 (offx0 + u64 (offy0 * stride t)) in
          let od := u64 (sx + u64 (sy * ow o)) in
          match odata o with
          | None =>
              if (os =? 0) && (od =? 0) && (stride t =? ow o) && (wd =? ow o) && (hd =? oh o) then Done (Some src)
              else if (oh o =? 0) || ((2 ^ 64 - 1) / oh o <? ow o) || ((2 ^ 64 - 1) / 4 <? u64 (ow o * oh o)) then Fail
              else
                let fresh := if negb (ow o =? wd) || negb (oh o =? hd)
                             then for_to 0 (ow o * oh o) (fun i m => upd m i 0) junk else junk in
                Done (Some (copy_rows (ow o) (stride t) od os wd hd src fresh))
          | Some d => Done (Some (copy_rows (ow o) (stride t) od os wd hd src d))
          end
  end.

(** The decoding loop over tiles, j2k.rs:11588-11648 [opj_j2k_decode_tiles],
    as far as this component is concerned: tiles in the order they come. *)
Fixpoint assemble (o : output) (ts : list (mem * tilecomp)) : result (option mem) :=
  match ts with
  | nil => Done (odata o)
  | cons (junk, t) ts =>
      match update_image junk o t with
      | Done d => assemble (mkOutput (ox0 o) (oy0 o) (factor o) (ow o) (oh o) d) ts
      | Panic => Panic
      | Fail => Fail
      end
  end.
