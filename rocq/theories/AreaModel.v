(** Decoding an area of a tile: which packets are read and which code-blocks
    decoded (tcd.rs [opj_tcd_is_subband_area_of_interest]), when the whole tile
    is decoded after all ([opj_tcd_is_whole_tilecomp_decoding]), and the stages of
    [opj_tcd_decode_tile] on windows, for reversible coding.

    The area [win] is on the reference grid. Bands, precincts and code-blocks are
    those of TileModel, which leaves out bands without samples; whether a packet
    is read depends on those bands too, so here their precincts count.
    Not modelled: failing allocations other than the sparse array's (and its
    [data_win], whose size is the window's), threads, [used_component], decoding
    fewer resolutions or layers, custom component transforms, more than one
    progression ([first_pass_failed] is set again for each). *)

From Coq Require Import ZArith List Bool.
From Verif Require Import I32 Ints Mem MathModel DwtModel MctModel ShiftModel GeomModel T2PacketModel T1Model CblkModel
  PiModel PiSpec PacketsModel TileModel SampleModel SparseModel WindowModel.
From Verif Require Import MathModel GeomModel TileModel.
Import ListNotations.
Local Open Scope Z_scope.
Local Notation u32 := Ints.u32.
Local Notation rect := GeomModel.rect.

(** ** Windows *)

(** tcd.rs:1784-1803 (the same at 2950-2959 and 3051-3068): the area on one axis
    of a component with subsampling [d], cut to the tile component's extent. *)
Definition window_axis (e w : Z * Z) (d : Z) : option (Z * Z) :=
  match uint_ceildiv (fst w) d, uint_ceildiv (snd w) d with
  | Some a, Some b => Some (Z.max (u32 (fst e)) a, Z.min (u32 (snd e)) b)
  | _, _ => None
  end.
Definition comp_window (T : tile) (win : rect) (c : Z) : option rect :=
  match tile_comp T c with
  | None => None
  | Some comp =>
      match window_axis (fst comp) (fst win) (sx (par T c)), window_axis (snd comp) (snd win) (sy (par T c)) with
      | Some x, Some y => Some (x, y)
      | _, _ => None
      end
  end.
(** tcd.rs:3069-3086 with no resolution left out: [shift] is 0. *)
Definition whole_axis (e w : Z * Z) : bool :=
  (u32 (fst e) <=? fst w) && (snd w <=? u32 (snd e)) && (u32 (fst w - u32 (fst e)) =? 0) && (u32 (u32 (snd e) - snd w) =? 0).
Definition whole_comp (comp w : rect) : bool := whole_axis (fst comp) (fst w) && whole_axis (snd comp) (snd w).

(** ** Areas of interest *)

(** tcd.rs:2961-3011: a coordinate of the window seen from a sub-band; [o] is
    [x0b] or [y0b]. *)
Definition interest_coord (n r o a : Z) : Z :=
  let nb := if r =? 0 then u32 (n - 1) else u32 (n - r) in
  if nb =? 0 then a
  else
    let d := u32 (shl_u32 1 (u32 (nb - 1)) * o) in
    if a <=? d then 0 else uint_ceildivpow2 (u32 (a - d)) nb.
(** tcd.rs:3012-3028 on one axis: the margin is 2; [b] is the extent of a
    precinct or code-block in the band. *)
Definition interest_axis (n r o : Z) (w b : Z * Z) : bool :=
  let t0 := interest_coord n r o (fst w) in let t1 := interest_coord n r o (snd w) in
  let t0 := if t0 <? 2 then 0 else u32 (t0 - 2) in let t1 := uint_adds t1 2 in
  (u32 (fst b) <? t1) && (t0 <? u32 (snd b)).
(** tcd.rs:2926-3031; [bandno] is the orientation. *)
Definition interest (n r bandno : Z) (w b : rect) : bool :=
  interest_axis n r (Z.land bandno 1) (fst w) (fst b) && interest_axis n r (Z.shiftr bandno 1) (snd w) (snd b).

(** tcd.rs:1162-1189: extent of precinct [k] of any band, with samples or not. *)
Definition prec_rect (p : params) (comp : rect) (r b k : Z) : option rect :=
  let n := nres p in let res := GeomModel.res_rect comp n r in let band := band_rect comp n r b in
  match prec_axis (fst res) (ex p r), prec_axis (snd res) (ey p r) with
  | Some (sx, pw), Some (sy, ph) =>
      let '(gx, ex) := group_axis r sx (ex p r) in let '(gy, ey) := group_axis r sy (ey p r) in
      Some (precinct_axis gx ex (fst band) (k mod pw), precinct_axis gy ey (snd band) (k / pw))
  | _, _ => None
  end.
(** t2.rs:386-425: whether a packet is read or skipped. *)
Definition area_want (T : tile) (win : rect) (q : packet) : bool :=
  let '(l, r, c, k) := q in
  (l <? t_layers T) && (r <? nres (par T c)) &&
  match tile_comp T c, comp_window T win c with
  | Some comp, Some w =>
      existsb (fun b => match prec_rect (par T c) comp r b k with Some p => interest (nres (par T c)) r (orient r b) w p | None => false end) (band_numbers r)
  | _, _ => false
  end.
(** t2.rs:373-378, 426-478: [first_pass_failed] and [resno_decoded]. *)
Definition note (T : tile) (want : packet -> bool) (st : (Z -> bool) * (Z -> Z)) (q : packet) : (Z -> bool) * (Z -> Z) :=
  let '(l, r, c, k) := q in let '(failed, dec) := st in
  if want q then (fun x => if x =? c then false else failed x, fun x => if x =? c then Z.max r (dec x) else dec x)
  else if failed c && (dec c =? 0) then (failed, fun x => if x =? c then u32 (nres (par T c) - 1) else dec x)
  else (failed, dec).
Definition resno_decoded (T : tile) (want : packet -> bool) (ps : list packet) : Z -> Z :=
  snd (fold_left (note T want) ps (fun _ => true, fun _ => 0)).

(** t1.rs:2106-2230: the code-blocks of resolution [r] to decode; [whole] is
    [whole_tile_decoding]. *)
Definition job : Type := Z * band * rect * dblk.
Definition area_blocks (whole : bool) (n r c : Z) (w : rect) (bs : list band) (ds : place -> list dband) : list job :=
  flat_map (fun ib : nat * band =>
    let '(i, b) := ib in
    flat_map (fun kq : nat * precinct =>
      let '(k, q) := kq in
      if interest n r (orient r (b_no b)) w (prect q)
      then match nth_error (ds (r, c, Z.of_nat k)) i with
           | None => []
           | Some d =>
               filter (fun j : job => let '(_, _, blk, _) := j in
                   interest n r (orient r (b_no b)) w blk && (whole || negb ((block_w blk =? 0) || (block_h blk =? 0))))
                 (map (fun be => (r, b, fst be, snd be)) (combine (cblks q) (db_blocks d)))
           end
      else []) (numbered (b_precs b))) (numbered bs).
Definition area_jobs (whole : bool) (psize size : Z) (T : tile) (S : Z -> style) (comp w : rect) (ds : place -> list dband) (c : Z) : option (list job) :=
  match all_some (map (fun r => match res_bands psize size (par T c) (S c) comp r with
                                | Some bs => Some (area_blocks whole (nres (par T c)) r c w bs ds)
                                | None => None
                                end) (upto (nres (par T c)))) with
  | None => None
  | Some l => Some (concat l)
  end.

(** ** The whole tile *)

(** tcd.rs:2156-2205 *)
Definition area_show (psize size : Z) (T : tile) (S : Z -> style) (win : rect) (ds : place -> list dband) (d : planes_t) : option planes_t :=
  for_to 0 (count T) (fun c d =>
    match d, tile_comp T c, comp_window T win c with
    | Some d, Some comp, Some w =>
        match area_jobs true psize size T S comp w ds c with
        | None => None
        | Some l => match show_blocks (S c) comp (nres (par T c)) l (d c) with Some m => Some (upd_plane d c m) | None => None end
        end
    | _, _, _ => None
    end) (Some d).

(** tcd.rs:2206-2230 with dwt.rs:1446-1523: [resno_decoded] + 1 resolutions. *)
Definition area_dwt (T : tile) (dec : Z -> Z) (buf : Z -> mem) (d : planes_t) : planes_t :=
  each_plane T (fun c comp m =>
    fst (dwt_decode_tile (width (fst comp)) (firstn (Z.to_nat (u32 (dec c + 1))) (resolutions (as_rect comp) (Z.to_nat (nres (par T c))))) (m, buf c))) d.
(** tcd.rs:2254-2303, 2346-2421 *)
Definition whole_mct (T : tile) (mct : bool) (dec : Z -> Z) (d : planes_t) : option planes_t :=
  if mct && (3 <=? count T) && negb ((dec 0 =? dec 1) && (dec 0 =? dec 2)) then None else mct_out T mct d.
(** tcd.rs:2422-2530 *)
Definition whole_shift (T : tile) (I : Z -> info) (dec : Z -> Z) (d : planes_t) : planes_t :=
  each_plane T (fun c comp m =>
    let r := GeomModel.res_rect comp (nres (par T c)) (dec c) in
    let w := width (fst r) in let h := width (snd r) in
    if (w =? 0) || (h =? 0) then m else
    let '(lo, hi) := range_of (i_sgnd (I c)) (i_prec (I c)) in dec_plane (i_shift (I c)) lo hi w h (u32 (width (fst comp) - w)) m) d.

(** ** A window of the tile *)

(** t1.rs:1841-1862, 1936-1990: [decoded_data] of a code-block; [v] is what the
    block decoder makes of it. It is zero first; t1.rs:2329-2333 has the block
    decoder write there, ht_dec.rs:1322 has the high-throughput one (style 64)
    write into [t1.data]. *)
Definition block_data (sty roi : Z) (v : mem) : mem :=
  fun a => halved (roi_unshift roi (if Z.land sty 64 =? 0 then v a else 0)).
Definition area_block (s : style) (j : job) : option dblock :=
  let '(r, b, blk, e) := j in
  match decode_block (block_w blk) (block_h blk) (orient r (b_no b)) (s_roi s) (s_sty s) e with
  | None => None
  | Some v => Some (mkDblock r (orient r (b_no b)) blk (block_data (s_sty s) (s_roi s) v))
  end.
(** tcd.rs:2156-2241: one component; [numres] of its resolutions ([dwt.rs:1700]:
    only their blocks are looked at). *)
Definition area_comp (alloc : Z -> bool) (psize size : Z) (T : tile) (S : Z -> style) (comp w : rect) (numres : Z) (buf : mem) (ds : place -> list dband) (c : Z) (m : mem)
  : option mem :=
  match area_jobs false psize size T S comp w ds c with
  | None => None
  | Some l =>
      match all_some (map (area_block (S c)) l) with
      | None => None
      | Some bs => decode_partial_tile alloc comp w (nres (par T c)) numres (filter (fun b => k_res b <? numres) bs) buf m
      end
  end.
Definition area_comps (alloc : Z -> Z -> bool) (psize size : Z) (T : tile) (S : Z -> style) (win : rect) (dec : Z -> Z) (buf : Z -> mem) (ds : place -> list dband) (d : planes_t)
  : option planes_t :=
  for_to 0 (count T) (fun c d =>
    match d, tile_comp T c, comp_window T win c with
    | Some d, Some comp, Some w =>
        match area_comp (alloc c) psize size T S comp w (u32 (dec c + 1)) (buf c) ds c (d c) with Some m => Some (upd_plane d c m) | None => None end
    | _, _, _ => None
    end) (Some d).
(** tcd.rs:1810-1843: the window at the resolution that was decoded. *)
Definition shown (T : tile) (win : rect) (dec : Z -> Z) (c : Z) : option rect :=
  match comp_window T win c with
  | Some w => Some (win_axis (fst w) (nres (par T c)) (dec c), win_axis (snd w) (nres (par T c)) (dec c))
  | None => None
  end.
Definition area_of (w : rect) : Z := u32 (width (fst w)) * u32 (width (snd w)).
(** tcd.rs:2304-2345 and 2364-2421 *)
Definition area_mct (T : tile) (mct : bool) (win : rect) (dec : Z -> Z) (d : planes_t) : option planes_t :=
  if negb mct then Some d else if count T <? 3 then Some d else
  match shown T win dec 0, shown T win dec 1, shown T win dec 2 with
  | Some w0, Some w1, Some w2 =>
      if (dec 0 =? dec 1) && (dec 0 =? dec 2) && (area_of w1 =? area_of w0) && (area_of w2 =? area_of w0) then Some (three (rct_inv i32) (area_of w0) d) else None
  | _, _, _ => None
  end.
(** tcd.rs:2422-2530 *)
Definition area_shift (T : tile) (I : Z -> info) (win : rect) (dec : Z -> Z) (d : planes_t) : planes_t :=
  for_to 0 (count T) (fun c d =>
    match shown T win dec c with
    | None => d
    | Some r =>
        let w := u32 (width (fst r)) in let h := u32 (width (snd r)) in
        if (w =? 0) || (h =? 0) then d else
        let '(lo, hi) := range_of (i_sgnd (I c)) (i_prec (I c)) in upd_plane d c (dec_plane (i_shift (I c)) lo hi w h 0 (d c))
    end) d.

(** ** The tile *)

Definition all_comps (T : tile) (f : Z -> bool) : bool := forallb f (upto (count T)).
(** tcd.rs:1725-1736 *)
Definition whole_tile (T : tile) (win : rect) : bool :=
  all_comps T (fun c => match tile_comp T c, comp_window T win c with Some comp, Some w => whole_comp comp w | _, _ => false end).
(** tcd.rs:1804-1812 *)
Definition windows_ok (T : tile) (win : rect) : bool :=
  all_comps T (fun c => match comp_window T win c with
                        | Some w => negb ((snd (fst w) <? fst (fst w)) || (snd (snd w) <? fst (snd w)))
                        | None => false
                        end).
(** tcd.rs:1683-1925 [opj_tcd_decode_tile]: the packets [ps] are read from
    [data]; [d] is what the planes hold before. Result: whether the planes are
    whole tile components or windows, and the planes. *)
Definition decode_area (alloc : Z -> Z -> bool) (psize size : Z) (T : tile) (S : Z -> style) (I : Z -> info) (mct : bool) (csty : Z) (win : rect)
    (ps : list packet) (data : list Z) (buf : Z -> mem) (d : planes_t) : option (bool * planes_t) :=
  let whole := whole_tile T win in
  if negb (whole || windows_ok T win) then None else
  let want := area_want T win in
  match read_packets (fun c => s_sty (S c)) csty want
          (fun p => match dec_place psize size T S p with Some l => l | None => [] end) ps data with
  | None => None
  | Some (ds, _) =>
      let dec := resno_decoded T want ps in
      if whole then
        match area_show psize size T S win ds d with
        | None => None
        | Some d => match whole_mct T mct dec (area_dwt T dec buf d) with Some d => Some (true, whole_shift T I dec d) | None => None end
        end
      else
        match area_comps alloc psize size T S win dec buf ds d with
        | None => None
        | Some d => match area_mct T mct win dec d with Some d => Some (false, area_shift T I win dec d) | None => None end
        end
  end.
