(** A tile between its coefficients and its packets: where each code-block lies
    in a tile component, and the loops around the block coder (t1.rs
    [opj_t1_encode_cblks], [opj_t1_decode_cblks] and the two processors), for
    reversible coding and decoding of whole tiles.

    The sub-bands, precincts and code-blocks are those of GeomModel. Bands
    without samples are left out: the encoder skips them (tcd.rs:1081-1091,
    t1.rs:2641), and so do the packets; the decoder sets up their precincts and
    visits their code-blocks, which have no samples and no data.
    Not modelled: allocation failure, threads, the area of interest (all is),
    decoding fewer resolutions, [decoded_data] (partial decoding). *)

From Coq Require Import ZArith List Bool.
From Verif Require Import I32 Ints Mem MathModel GeomModel TgtModel T2PacketModel T1Model CblkModel PiModel PiSpec PacketsModel.
Import ListNotations.
Local Open Scope Z_scope.

(** j2k.rs [opj_tccp_t]: [cblkw], [cblkh], [cblksty], [roishift], [numgbits] and
    the exponents of [stepsizes]. (Precinct sizes are in PiSpec's [params].) *)
Record style : Type := mkStyle { s_cbw : Z; s_cbh : Z; s_sty : Z; s_roi : Z; s_guard : Z; s_expn : list Z }.

(** tcd.rs:879-882 for both axes. *)
Definition tile_comp (T : tile) (c : Z) : option rect :=
  match comp_axis (t_x0 T, t_x1 T) (sx (par T c)), comp_axis (t_y0 T, t_y1 T) (sy (par T c)) with
  | Some x, Some y => Some (x, y)
  | _, _ => None
  end.

(** tcd.rs:1041, 1055: [numbands]. *)
Definition band_numbers (r : Z) : list Z := if r =? 0 then [0] else [0; 1; 2].
(** tcd.rs:1063, 1069: the field [bandno], which is the orientation too. *)
Definition orient (r b : Z) : Z := if r =? 0 then 0 else b + 1.
(** tcd.rs:1111 with the step sizes counted through the bands (tcd.rs:1361). *)
Definition planes (s : style) (r b : Z) : Z :=
  nth (Z.to_nat (if r =? 0 then 0 else 3 * (r - 1) + b + 1)) (s_expn s) 0 + s_guard s - 1.
(** tcd.rs:2921-2923 *)
Definition is_band_empty (b : rect) : bool := (snd (fst b) - fst (fst b) =? 0) || (snd (snd b) - fst (snd b) =? 0).

(** One sub-band: its number, extent and precincts. *)
Record band : Type := mkBand { b_no : Z; b_rect : rect; b_precs : list precinct }.
Definition res_bands (psize size : Z) (p : params) (s : style) (comp : rect) (r : Z) : option (list band) :=
  let n := nres p in
  all_some (map (fun b =>
      match band_precincts psize size (mkCoding (ex p r) (ey p r) (s_cbw s) (s_cbh s)) comp n r b with
      | Some ps => Some (mkBand b (band_rect comp n r b) ps)
      | None => None
      end) (filter (fun b => negb (is_band_empty (band_rect comp n r b))) (band_numbers r))).
(** The precinct of each band a packet is about. *)
Definition at_precinct (bs : list band) (k : Z) : list (band * precinct) :=
  flat_map (fun b => match nth_error (b_precs b) (Z.to_nat k) with Some p => [(b, p)] | None => [] end) bs.
Definition numbered {A : Type} (l : list A) : list (nat * A) := combine (seq 0 (length l)) l.

(** tcd.rs:1269-1301: the trees of a precinct; null ones are never used. *)
Definition prec_tree (p : precinct) : tree :=
  match tgt_create (Z.to_nat (cw p)) (Z.to_nat (ch p)) with Some t => t | None => mkTree [] 0 blank end.

Definition width (e : Z * Z) : Z := snd e - fst e.
(** t1.rs:2445-2446, 2458-2470 and 1921-1935: where a code-block begins, in the
    tile component. *)
Definition corner (comp : rect) (n r : Z) (b : band) (blk : rect) : Z * Z :=
  let o := orient r (b_no b) in
  let pres := res_rect comp n (r - 1) in
  (i32 (i32 (fst (fst blk) - fst (fst (b_rect b))) + (if Z.land o 1 =? 0 then 0 else i32 (width (fst pres)))),
   i32 (i32 (fst (snd blk) - fst (snd (b_rect b))) + (if Z.land o 2 =? 0 then 0 else i32 (width (snd pres))))).
(** t1.rs:2440 *)
Definition comp_w (comp : rect) : Z := u32 (i32 (width (fst comp))).
(** t1.rs:1886-1892: of the highest resolution. *)
Definition top_w (comp : rect) (n : Z) : Z := u32 (i32 (width (fst (res_rect comp n (n - 1))))).
Definition block_w (blk : rect) : Z := u32 (i32 (width (fst blk))).
Definition block_h (blk : rect) : Z := u32 (i32 (width (snd blk))).

(** ** Encoder *)

(** t1.rs:2482-2533: the coefficient of column [i] and row [j] of the block. *)
Definition take (comp : rect) (n r : Z) (b : band) (blk : rect) (data : mem) (i j : Z) : Z :=
  let '(x, y) := corner comp n r b blk in
  data (y * comp_w comp + x + u32 (u32 (j * comp_w comp) + i)).
(** t1.rs:2472-2604. The coder's buffer is [buf]; its byte before the first one
    is reserved (tcd.rs:1449-1451). *)
Definition code_block (s : style) (comp : rect) (n r : Z) (b : band) (blk : rect) (data buf : mem) : option coded :=
  encode_cblk 1 (block_w blk) (block_h blk) (orient r (b_no b)) (s_sty s)
    (stripe_order (block_w blk) (block_h blk) (scaled (take comp n r b blk data))) buf.

(** Which code-block: component, resolution, band, precinct, code-block. *)
Definition key : Type := Z * Z * Z * Z * nat.
(** What a packet of the place is made of: t1.rs:2602-2688 codes the blocks, rate
    allocation ([cuts]) makes the layers. *)
Definition enc_place (psize size : Z) (T : tile) (S : Z -> style) (data : Z -> mem) (bufs : key -> mem) (cuts : key -> list nat) (p : place)
  : option (list eband) :=
  let '(r, c, k) := p in let s := S c in let n := nres (par T c) in
  if negb ((0 <=? c) && (c <? Z.of_nat (length (t_comps T))) && (0 <=? r) && (r <? n) && (0 <=? k)) then Some [] else
  match tile_comp T c with
  | None => None
  | Some comp =>
      match res_bands psize size (par T c) s comp r with
      | None => None
      | Some bs =>
          all_some (map (fun bp =>
              let '(b, q) := bp in
              match all_some (map (fun jb =>
                  let '(j, blk) := jb in
                  match code_block s comp n r b blk (data c) (bufs (c, r, b_no b, k, j)) with
                  | Some kd => Some (coded_block kd (cuts (c, r, b_no b, k, j)))
                  | None => None
                  end) (numbered (cblks q))) with
              | Some l => Some (mkEB (planes s r (b_no b)) (prec_tree q) (prec_tree q) l)
              | None => None
              end) (at_precinct bs k))
      end
  end.

(** ** Decoder *)

(** tcd.rs:1162-1354: the place before its first packet. *)
Definition dec_place (psize size : Z) (T : tile) (S : Z -> style) (p : place) : option (list dband) :=
  let '(r, c, k) := p in let s := S c in
  if negb ((0 <=? c) && (c <? Z.of_nat (length (t_comps T))) && (0 <=? r) && (r <? nres (par T c)) && (0 <=? k)) then Some [] else
  match tile_comp T c with
  | None => None
  | Some comp =>
      match res_bands psize size (par T c) s comp r with
      | None => None
      | Some bs =>
          Some (map (fun bp => let '(b, q) := bp in
                  mkDB (planes s r (b_no b)) (prec_tree q) (prec_tree q) (map (fun _ => blank_block) (cblks q))) (at_precinct bs k))
      end
  end.

(** t1.rs:1936-1976, 1997-2062: region of interest undone, halved, written. *)
Definition put (w x y bw bh roi : Z) (v d : mem) : mem :=
  for_to 0 bh (fun j d => for_to 0 bw (fun i d =>
    Mem.upd d (y * w + x + (j * w + i)) (halved (roi_unshift roi (v (u32 (u32 (j * bw) + i)))))) d) d.
(** t1.rs:1822-2090, one code-block. *)
Definition show_block (s : style) (comp : rect) (n r : Z) (b : band) (blk : rect) (e : dblk) (d : mem) : option mem :=
  match decode_block (block_w blk) (block_h blk) (orient r (b_no b)) (s_roi s) (s_sty s) e with
  | None => None
  | Some v => let '(x, y) := corner comp n r b blk in Some (put (top_w comp n) x y (block_w blk) (block_h blk) (s_roi s) v d)
  end.
Fixpoint show_blocks (s : style) (comp : rect) (n : Z) (l : list (Z * band * rect * dblk)) (d : mem) : option mem :=
  match l with
  | [] => Some d
  | (r, b, blk, e) :: l =>
      match show_block s comp n r b blk e d with
      | None => None
      | Some d => show_blocks s comp n l d
      end
  end.
(** t1.rs:2106-2230: the blocks of resolution [r], by band, precinct, block. *)
Definition res_blocks (r c : Z) (bs : list band) (ds : place -> list dband) : list (Z * band * rect * dblk) :=
  flat_map (fun ib : nat * band =>
    let '(i, b) := ib in
    flat_map (fun kq : nat * precinct =>
      let '(k, q) := kq in
      match nth_error (ds (r, c, Z.of_nat k)) i with
      | None => []
      | Some d => map (fun be => (r, b, fst be, snd be)) (combine (cblks q) (db_blocks d))
      end) (numbered (b_precs b))) (numbered bs).
Definition show_comp (psize size : Z) (T : tile) (S : Z -> style) (ds : place -> list dband) (c : Z) (d : mem) : option mem :=
  match tile_comp T c with
  | None => None
  | Some comp =>
      match all_some (map (fun r => match res_bands psize size (par T c) (S c) comp r with
                                    | Some bs => Some (res_blocks r c bs ds)
                                    | None => None
                                    end) (upto (nres (par T c)))) with
      | None => None
      | Some l => show_blocks (S c) comp (nres (par T c)) (concat l) d
      end
  end.
