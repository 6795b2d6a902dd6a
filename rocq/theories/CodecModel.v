(** A whole image, from samples to code-stream and back: the stages of the other
    models put together as [opj_j2k_encode] (j2k.rs:12167-12270) and
    [opj_j2k_decode] (j2k.rs:11888-11942) do it, for reversible coding
    ([qmfbid] = 1 and [qntsty] = 0 in all components) and decoding of the whole
    image at full resolution.

    [None] is any failure. Not modelled: allocation failure, threads, choice of
    components ([m_numcomps_to_decode]), [m_max_layers] and other limits of the
    decoder, custom component transforms, the code-stream index. Buffers not yet
    written hold arbitrary words, which are parameters. *)

From Coq Require Import ZArith List Bool.
From Verif Require Import I32 Ints Mem MathModel CioModel GeomModel PiModel PiSpec T2PacketModel CblkModel PacketsModel TileModel SampleModel
  TileDataModel AssembleModel PartModel HdrModel.
Import ListNotations.
Local Open Scope Z_scope.

(** ** Parameters *)

(** One entry per component, with something for other indices. *)
Definition look {A : Type} (d : A) (l : list A) (c : Z) : A := nth (Z.to_nat c) l d.
(** j2k.rs [opj_tccp_t], as far as the block coder is concerned. *)
Definition style1 (t : tccp) : style :=
  mkStyle (HdrModel.cblkw t) (HdrModel.cblkh t) (cblksty t) (roishift t) (numgbits t) (map (expn t) (GeomModel.upto (3 * HdrModel.numres t - 2))).
Definition style_of (t : HdrModel.tcp) : Z -> style := look (mkStyle 0 0 0 0 0 []) (map style1 (HdrModel.t_comps t)).
(** Image and coding parameters of the components (pi.rs:1408-1501 takes the
    precincts from [prcw], [prch]). *)
Definition paired (s : siz) (t : HdrModel.tcp) : list (HdrModel.comp * tccp) := combine (comps s) (HdrModel.t_comps t).
Definition info1 (p : HdrModel.comp * tccp) : info := mkInfo (c_sgnd (fst p)) (c_prec (fst p)) (dcshift (snd p)).
Definition info_of (s : siz) (t : HdrModel.tcp) : Z -> info := look (mkInfo 0 0 0) (map info1 (paired s t)).
Definition params1 (p : HdrModel.comp * tccp) : params :=
  mkParams (c_dx (fst p)) (c_dy (fst p)) (map (fun r => (prcw (snd p) r, prch (snd p) r)) (GeomModel.upto (HdrModel.numres (snd p)))).
(** openjpeg.rs [OPJ_PROG_ORDER]; the reader makes others -1 (j2k.rs:1736-1739). *)
Definition order_of (prg : Z) : option order :=
  if prg =? 0 then Some LRCP else if prg =? 1 then Some RLCP else if prg =? 2 then Some RPCL else if prg =? 3 then Some PCRL
  else if prg =? 4 then Some CPRL else None.
Definition with_mct (t : HdrModel.tcp) : bool := t_mct t =? 1.

(** tcd.rs:843-957: tile [i], with the parameters of its components. *)
Definition tile_of (s : siz) (t : HdrModel.tcp) (tw i : Z) : option tile :=
  match tile_rect (x0 s, x1 s) (y0 s, y1 s) (tx0 s, tdx s) (ty0 s, tdy s) tw i with
  | None => None
  | Some (x, y) => Some (PiSpec.mkTile (fst x) (fst y) (snd x) (snd y) (HdrModel.t_layers t) (map params1 (paired s t)))
  end.
(** j2k.rs:1386-1399 *)
Definition tiles_of (s : siz) : option (Z * Z) := siz_tiles (x0 s, x1 s) (y0 s, y1 s) (tx0 s, tdx s) (ty0 s, tdy s).

(** ** Encoder *)

(** j2k.rs:12373-12411 and 12430-12454: a component of the tile in the image
    [image], whose planes have rows of ceil((x1 - x0) / dx) samples. *)
Definition plane_of (s : siz) (T : tile) (image : planes_t) (c : Z) : option plane :=
  let q := look (mkComp 0 0 0 0) (comps s) c in
  match tile_comp T c with
  | None => None
  | Some comp =>
      match tile_dimensions (x0 s) (x1 s) (y0 s) (c_dx q) (c_dy q) (fst (fst comp)) (snd (fst comp)) (fst (snd comp)) with
      | None => None
      | Some (_, stride, off) => Some (mkPlane (c_prec q) (c_sgnd q) (width (fst comp)) (width (snd comp)) stride (fun k => image c (off + k)))
      end
  end.
(** j2k.rs:12440-12447: the part of the component's plane that is made a slice:
    first sample and number of samples ([usize]). *)
Definition plane_slice (s : siz) (T : tile) (c : Z) : option (Z * Z) :=
  let q := look (mkComp 0 0 0 0) (comps s) c in
  match tile_comp T c with
  | None => None
  | Some comp =>
      match tile_dimensions (x0 s) (x1 s) (y0 s) (c_dx q) (c_dy q) (fst (fst comp)) (snd (fst comp)) (fst (snd comp)) with
      | None => None
      | Some (_, stride, off) => let w := u32 (width (fst comp)) in let h := u32 (width (snd comp)) in Some (off, u64 (u64 (h * w) + u64 (h * stride)))
      end
  end.
(** j2k.rs:12192-12252: with one tile its planes are those of the image; else the
    samples go through a buffer ([dest] is what it holds). *)
Definition tile_input (big : bool) (s : siz) (T : tile) (nb : Z) (image : planes_t) (dest : list Z) : option planes_t :=
  if nb =? 1 then Some image
  else
    match all_some (map (plane_of s T image) (GeomModel.upto (numcomps s))) with
    | None => None
    | Some ps =>
        match get_tile big ps dest with
        | None => None
        | Some bytes =>
            match copy_tile big ps bytes with
            | Some (Some l) => Some (fun c k => match look None l c with Some v => nth (Z.to_nat k) v 0 | None => 0 end)
            | _ => None
            end
        end
    end.

(** What the coding of a tile depends on besides the image: what buffers hold,
    the passes of each code-block put in each layer (rate allocation), the packets
    put in each tile-part with the room it has, and the count of SOP markers. *)
Record run := mkRun {
  r_dest : list Z; r_tmp : Z -> mem; r_bufs : TileModel.key -> mem; r_cuts : TileModel.key -> list nat; r_packno : Z; r_parts : list (Z * list packet) }.
(** The encoder's state of a place before its first packet (none outside the tile). *)
Definition at_place {A : Type} (f : place -> option (list A)) (p : place) : list A := match f p with Some l => l | None => [] end.
(** j2k.rs:12192-12260, tcd.rs:1579-1681: the data of the tile-parts of tile [i].
    [psize], [esize] are the sizes of the precinct and code-block structures. *)
Definition encode_tile (psize esize : Z) (big : bool) (s : siz) (t : HdrModel.tcp) (tw nb : Z) (image : planes_t) (r : run) (i : Z) : option (list (list Z)) :=
  match tile_of s t tw i with
  | None => None
  | Some T =>
      match tile_input big s T nb image (r_dest r) with
      | None => None
      | Some d =>
          match analyse T (info_of s t) (with_mct t) (r_tmp r) d with
          | None => None
          | Some coef =>
              match write_parts (t_csty t) (r_packno r) (PiSpec.t_layers T)
                      (at_place (enc_place psize esize T (style_of t) coef (r_bufs r) (r_cuts r))) (r_parts r) with
              | None => None
              | Some (datas, _) => Some datas
              end
          end
      end
  end.

(** ** Decoder *)

(** pi.rs:2094-2133 and t2.rs:349-489: the packets of the tile in the order of its
    progressions; none if the order is unknown (pi.rs:2830-2841). *)
Definition volumes (T : tile) (t : HdrModel.tcp) : option (list volume) :=
  match t_pocs t with
  | [] =>
      match order_of (t_prg t) with
      | None => None
      | Some o => Some [whole (t_x0 T) (t_y0 T) (t_x1 T) (t_y1 T) (PiSpec.t_layers T) (PiSpec.t_comps T) o]
      end
  | ps =>
      all_some (map (fun p => match order_of (p_prg p) with
                              | None => None
                              | Some o => Some (poc_volume (PiSpec.t_layers T) (mkVol o (p_res0 p) (p_res1 p) (p_comp0 p) (p_comp1 p) (p_lay1 p)))
                              end) ps)
  end.
Definition packets_of (fuel : nat) (T : tile) (t : HdrModel.tcp) : option (list packet) :=
  match volumes T t with
  | None => Some []
  | Some vs =>
      match iterators (t_x0 T) (t_y0 T) (t_x1 T) (t_y1 T) (PiSpec.t_layers T) (PiSpec.t_comps T) vs with
      | None => None
      | Some gs => drain_all fuel fuel gs (fun _ => 0)
      end
  end.

(** j2k.rs:9439-9535 [opj_j2k_decode_tile], tcd.rs:1683-1925: the samples of tile
    [i] from its data. *)
Definition decode_data (psize dsize : Z) (fuel : nat) (s : siz) (tw : Z) (buf fresh : Z -> planes_t) (i : Z) (t : HdrModel.tcp) (data : list Z) : option (tile * planes_t) :=
  match tile_of s t tw i with
  | None => None
  | Some T =>
      match packets_of fuel T t with
      | None => None
      | Some out =>
          match read_packets (fun c => s_sty (style_of t c)) (t_csty t) (fun _ => true) (at_place (dec_place psize dsize T (style_of t))) out data with
          | None => None
          | Some (ds, _) =>
              match synthesise psize dsize T (style_of t) (info_of s t) (with_mct t) (buf i) ds (fresh i) with
              | None => None
              | Some d => Some (T, d)
              end
          end
      end
  end.

(** image.rs:379-410 [opj_image_comp_header_update], called at j2k.rs:1504: the
    component [q] of the output image. *)
Definition header_update (s : siz) (tw th fac : Z) (q : HdrModel.comp) : option output :=
  let lx0 := Z.max (tx0 s) (x0 s) in let ly0 := Z.max (ty0 s) (y0 s) in
  let lx1 := Z.min (uint_adds (u32 (tx0 s + u32 (u32 (tw - 1) * tdx s))) (tdx s)) (x1 s) in
  let ly1 := Z.min (uint_adds (u32 (ty0 s + u32 (u32 (th - 1) * tdy s))) (tdy s)) (y1 s) in
  match uint_ceildiv lx0 (c_dx q), uint_ceildiv ly0 (c_dy q), uint_ceildiv lx1 (c_dx q), uint_ceildiv ly1 (c_dy q) with
  | Some a, Some b, Some c, Some d => Some (mkOutput a b fac (uint_ceildivpow2 (u32 (c - a)) fac) (uint_ceildivpow2 (u32 (d - b)) fac) None)
  | _, _, _, _ => None
  end.

(** j2k.rs:9569-9607: component [c] of a decoded tile, at its highest resolution. *)
Definition decoded_comp (T : tile) (d : planes_t) (c : Z) : option tilecomp :=
  match tile_comp T c with
  | None => None
  | Some comp =>
      let n := nres (par T c) in let r := GeomModel.res_rect comp n (n - 1) in
      Some (AssembleModel.mkTile (fst (fst r)) (snd (fst r)) (fst (snd r)) (snd (snd r)) (u32 (i32 (width (fst r)))) (Some (d c)))
  end.

(** j2k.rs:11544-11580: a single tile which is the whole output image. *)
Definition whole_tile (s : siz) (tw th : Z) : bool :=
  (tw =? 1) && (th =? 1) && (tx0 s =? 0) && (ty0 s =? 0) && (x0 s =? 0) && (y0 s =? 0) && (x1 s =? tdx s) && (y1 s =? tdy s).
(** j2k.rs:11562-11578 and 11628, 11487-11535: component [c] of the output image
    from the tiles [l], in the order they were decoded. [junk]: what a fresh
    allocation for the component holds. *)
Definition gather (s : siz) (tw th : Z) (junk : Z -> mem) (l : list (Z * (tile * planes_t))) (c : Z) : option output :=
  match header_update s tw th 0 (look (mkComp 0 0 0 0) (comps s) c) with
  | None => None
  | Some o =>
      if whole_tile s tw th then
        match l with
        | (_, (T, d)) :: _ => Some (mkOutput (ox0 o) (oy0 o) (factor o) (ow o) (oh o) (Some (d c)))
        | [] => None
        end
      else
        match all_some (map (fun x => decoded_comp (fst (snd x)) (snd (snd x)) c) l) with
        | None => None
        | Some ts =>
            match assemble o (map (fun t => (junk c, t)) ts) with
            | AssembleModel.Done (Some m) => Some (mkOutput (ox0 o) (oy0 o) (factor o) (ow o) (oh o) (Some m))
            | _ => None
            end
        end
  end.

(** j2k.rs:8240-8441 (main header), 11538-11655, 11804-11886: the components of
    the image in a code-stream. [other], [handle]: markers of the main header and
    of tile-part headers that the encoder does not write. *)
Definition decode_image (psize dsize : Z) (fuel : nat) (buf fresh : Z -> planes_t) (junk : Z -> mem)
    (other : Z -> hdr -> list Z -> option hdr) (handle : Z -> Z -> HdrModel.tcp -> list Z -> option HdrModel.tcp) (ihdr : Z * Z) (strict seekable fails : bool)
    (bytes : list Z) : option (list output) :=
  match read_header other ihdr 0 bytes with
  | None => None
  | Some (s, t, bytes) =>
      match tiles_of s with
      | None => None
      | Some (tw, th) =>
          match decode_tiles handle (decode_data psize dsize fuel s tw buf fresh) (tw * th) (fun _ => true) strict seekable fails (fun _ => t) bytes with
          | PartModel.Done l => all_some (map (gather s tw th junk l) (GeomModel.upto (numcomps s)))
          | _ => None
          end
      end
  end.
