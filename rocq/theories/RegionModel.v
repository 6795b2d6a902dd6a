(** Decoding an area of the image: what [opj_j2k_set_decode_area] makes of the
    area asked for, which tiles are decoded, the place of a single tile
    ([opj_j2k_get_tile]), and [opj_j2k_decode] after that, for reversible coding at
    full resolution.

    [None] is any failure. Left out: the checks of the decoder's state, keeping
    the data of a single tile for another area, and what CodecModel and AreaModel
    leave out. Differences of unsigned numbers wrap, as in a release build. *)

From Coq Require Import ZArith List Bool.
From Verif Require Import I32 Ints Mem MathModel CioModel GeomModel PiModel PiSpec T2PacketModel CblkModel PacketsModel TileModel SampleModel
  TileDataModel AssembleModel PartModel HdrModel CodecModel AreaModel.
From Verif Require Import MathModel GeomModel TileModel CodecModel.
Import ListNotations.
Local Open Scope Z_scope.

(** ** The area *)

(** j2k.rs:9947-9978 (x) and 9979-10010 (y): the lower end [p] of the area asked
    for; the first tile and where the area begins. [i0], [i1]: the image, [t0],
    [td]: origin and size of the tiles. *)
Definition start_axis (i0 i1 t0 td p : Z) : option (Z * Z) :=
  if p <? 0 then None
  else if i1 <? u32 p then None
  else if u32 p <? i0 then Some (0, i0)
  else Some (u32 (u32 p - t0) / td, u32 p).
(** j2k.rs:10011-10041 (x) and 10042-10074 (y): the upper end; [n] tiles. *)
Definition end_axis (i0 i1 t0 td n p : Z) : option (Z * Z) :=
  if p <=? 0 then None
  else if u32 p <? i0 then None
  else if i1 <? u32 p then Some (n, i1)
  else match uint_ceildiv (u32 (u32 p - t0)) td with Some e => Some (e, u32 p) | None => None end.

(** Tiles from [m_start_tile] to before [m_end_tile], and the area: [x0], [y0],
    [x1], [y1] of the output image. *)
Record selection := mkSel { sel_tx : Z * Z; sel_ty : Z * Z; sel_win : rect }.

(** j2k.rs:9892-10079; the area asked for is [ask] (coordinates are [i32]). *)
Definition select (s : siz) (tw th : Z) (ask : rect) : option selection :=
  let '((ax0, ax1), (ay0, ay1)) := ask in
  if (ax0 =? 0) && (ay0 =? 0) && (ax1 =? 0) && (ay1 =? 0)
  then Some (mkSel (0, tw) (0, th) ((x0 s, x1 s), (y0 s, y1 s)))
  else
    match start_axis (x0 s) (x1 s) (tx0 s) (tdx s) ax0, start_axis (y0 s) (y1 s) (ty0 s) (tdy s) ay0,
          end_axis (x0 s) (x1 s) (tx0 s) (tdx s) tw ax1, end_axis (y0 s) (y1 s) (ty0 s) (tdy s) th ay1 with
    | Some (sx, wx0), Some (sy, wy0), Some (ex, wx1), Some (ey, wy1) => Some (mkSel (sx, ex) (sy, ey) ((wx0, wx1), (wy0, wy1)))
    | _, _, _, _ => None
    end.

(** j2k.rs:9770-9838 [opj_j2k_update_image_dimensions] on one axis of a component
    with subsampling [d] and reduction factor [fac]: origin and size. *)
Definition dim_axis (w : Z * Z) (d fac : Z) : option (Z * Z) :=
  if (2147483647 <? fst w) || (2147483647 <? snd w) then None
  else
    match uint_ceildiv (fst w) d, int_ceildiv (i32 (snd w)) (i32 d) with
    | Some a, Some b =>
        let n := i32 (int_ceildivpow2 b fac - int_ceildivpow2 (i32 a) fac) in
        if n <? 0 then None else Some (a, u32 n)
    | _, _ => None
    end.
Definition dims (win : rect) (fac : Z) (q : HdrModel.comp) : option output :=
  match dim_axis (fst win) (c_dx q) fac, dim_axis (snd win) (c_dy q) fac with
  | Some (a, w), Some (b, h) => Some (mkOutput a b fac w h None)
  | _, _ => None
  end.
(** j2k.rs:9924-9931, 10076-10079; the selection and the components. *)
Definition set_decode_area (s : siz) (tw th fac : Z) (ask : rect) : option (selection * list output) :=
  match select s tw th ask with
  | None => None
  | Some sel => match all_some (map (dims (sel_win sel) fac) (comps s)) with Some os => Some (sel, os) | None => None end
  end.

(** j2k.rs:3797-3801 (the tile's column and row: 3686-3687): not skipped. *)
Definition selected (sel : selection) (tw i : Z) : bool :=
  let p := i mod tw in let q := i / tw in
  negb ((p <? fst (sel_tx sel)) || (snd (sel_tx sel) <=? p) || (q <? fst (sel_ty sel)) || (snd (sel_ty sel) <=? q)).

(** j2k.rs:11972-11998 [opj_j2k_get_tile] on one axis: the extent of tile column
    or row [p] of the image. *)
Definition get_axis (i0 i1 t0 td p : Z) : Z * Z :=
  let a := u32 (u32 (p * td) + t0) in let b := u32 (u32 (u32 (p + 1) * td) + t0) in
  (if a <? i0 then i0 else a, if i1 <? b then i1 else b).
(** j2k.rs:12006-12024: origin and size ([u32]) of a component; the size is not
    checked. *)
Definition get_dim (w : Z * Z) (d fac : Z) : option (Z * Z) :=
  match uint_ceildiv (fst w) d, int_ceildiv (i32 (snd w)) (i32 d) with
  | Some a, Some b => Some (a, u32 (i32 (int_ceildivpow2 b fac - int_ceildivpow2 (i32 a) fac)))
  | _, _ => None
  end.
Definition get_tile_rect (s : siz) (tw th i : Z) : option rect :=
  if u32 (tw * th) <=? i then None
  else Some (get_axis (x0 s) (x1 s) (tx0 s) (tdx s) (i mod tw), get_axis (y0 s) (y1 s) (ty0 s) (tdy s) (i / tw)).

(** ** Decoding *)

(** What is kept of a decoded tile: its planes are whole components or windows,
    and [resno_decoded]. *)
Record shot := mkShot { sh_tile : tile; sh_whole : bool; sh_dec : Z -> Z; sh_planes : planes_t }.

(** j2k.rs:9439-9535 and tcd.rs:1683-1925 with the bounds of the output image;
    [alloc]: which of the sparse array's blocks can be had. *)
Definition decode_shot (alloc : Z -> Z -> Z -> bool) (psize dsize : Z) (fuel : nat) (s : siz) (tw : Z) (win : rect) (buf fresh : Z -> planes_t) (i : Z) (t : HdrModel.tcp) (data : list Z)
  : option shot :=
  match tile_of s t tw i with
  | None => None
  | Some T =>
      match packets_of fuel T t with
      | None => None
      | Some out =>
          match decode_area (alloc i) psize dsize T (style_of t) (info_of s t) (with_mct t) (t_csty t) win out data (buf i) (fresh i) with
          | None => None
          | Some (wh, d) => Some (mkShot T wh (resno_decoded T (area_want T win) out) d)
          end
      end
  end.

(** j2k.rs:9569-9607, tcd.rs:1878-1906: component [c] of a decoded tile;
    [data_win] is null if the window is empty. *)
Definition shot_comp (win : rect) (h : shot) (c : Z) : option tilecomp :=
  let T := sh_tile h in
  match tile_comp T c with
  | None => None
  | Some comp =>
      if sh_whole h then
        let n := nres (par T c) in let r := GeomModel.res_rect comp n (sh_dec h c) in let top := GeomModel.res_rect comp n (n - 1) in
        Some (AssembleModel.mkTile (fst (fst r)) (snd (fst r)) (fst (snd r)) (snd (snd r)) (u32 (i32 (width (fst top)))) (Some (sh_planes h c)))
      else
        match shown T win (sh_dec h) c with
        | None => None
        | Some r =>
            let w := u32 (width (fst r)) in let ht := u32 (width (snd r)) in
            Some (AssembleModel.mkTile (i32 (fst (fst r))) (i32 (snd (fst r))) (i32 (fst (snd r))) (i32 (snd (snd r))) w
                    (if (0 <? w) && (0 <? ht) then Some (sh_planes h c) else None))
        end
  end.

(** j2k.rs:11548-11556: a single tile which is the whole output image. *)
Definition single_whole (s : siz) (tw th : Z) (win : rect) : bool :=
  (tw =? 1) && (th =? 1) && (tx0 s =? 0) && (ty0 s =? 0) &&
  (fst (fst win) =? 0) && (fst (snd win) =? 0) && (snd (fst win) =? tdx s) && (snd (snd win) =? tdy s).
(** j2k.rs:11562-11578 and 11628, 11487-11535: component [c] of the output image,
    which is [o] at first; a component without data is a failure. *)
Definition gather_area (s : siz) (tw th : Z) (win : rect) (junk : Z -> mem) (l : list (Z * shot)) (c : Z) (o : output) : option output :=
  if single_whole s tw th win then
    match l with
    | (_, h) :: _ => Some (mkOutput (ox0 o) (oy0 o) (factor o) (ow o) (oh o) (Some (sh_planes h c)))
    | [] => None
    end
  else
    match all_some (map (fun x => shot_comp win (snd x) c) l) with
    | None => None
    | Some ts =>
        match assemble o (map (fun t => (junk c, t)) ts) with
        | AssembleModel.Done (Some m) => Some (mkOutput (ox0 o) (oy0 o) (factor o) (ow o) (oh o) (Some m))
        | _ => None
        end
    end.

(** Main header, then [opj_j2k_set_decode_area], then [opj_j2k_decode]. *)
Definition decode_image_area (alloc : Z -> Z -> Z -> bool) (psize dsize : Z) (fuel : nat) (buf fresh : Z -> planes_t) (junk : Z -> mem)
    (other : Z -> hdr -> list Z -> option hdr) (handle : Z -> Z -> HdrModel.tcp -> list Z -> option HdrModel.tcp) (ihdr : Z * Z) (strict seekable fails : bool)
    (ask : rect) (bytes : list Z) : option (list output) :=
  match read_header other ihdr 0 bytes with
  | None => None
  | Some (s, t, bytes) =>
      match tiles_of s with
      | None => None
      | Some (tw, th) =>
          match set_decode_area s tw th 0 ask with
          | None => None
          | Some (sel, os) =>
              match decode_tiles handle (decode_shot alloc psize dsize fuel s tw (sel_win sel) buf fresh) (tw * th) (selected sel tw) strict seekable fails (fun _ => t) bytes with
              | PartModel.Done l => all_some (map (fun co => gather_area s tw th (sel_win sel) junk l (Z.of_nat (fst co)) (snd co)) (combine (seq 0 (length os)) os))
              | _ => None
              end
          end
      end
  end.
