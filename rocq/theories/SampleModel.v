(** A tile from samples to samples: the order of the stages of
    [opj_tcd_encode_tile] and [opj_tcd_decode_tile] (tcd.rs), for reversible
    coding and decoding of whole tiles: DC level shift (ShiftModel), component
    transform (MctModel), wavelet transform (DwtModel) around the code-blocks
    and packets of TileModel. A plane per component; all of them are a function
    of the component's number.

    Not modelled: allocation failure, custom transforms ([mct] = 2),
    [used_component], decoding fewer resolutions ([minimum_num_resolutions] and
    [resno_decoded] are those of the highest resolution; a component without
    samples has none and nothing is done to it). *)

From Coq Require Import ZArith List Bool.
From Verif Require Import I32 Ints Mem MathModel GeomModel DwtModel MctModel ShiftModel PiModel PiSpec T2PacketModel CblkModel PacketsModel TileModel.
Import ListNotations.
Local Open Scope Z_scope.

(** openjpeg.rs [opj_image_comp_t]: [sgnd], [prec]; j2k.rs [opj_tccp_t]: [m_dc_level_shift]. *)
Record info : Type := mkInfo { i_sgnd : Z; i_prec : Z; i_shift : Z }.
Definition planes_t : Type := Z -> mem.

Definition count (T : tile) : Z := Z.of_nat (length (t_comps T)).
Definition upd_plane (d : planes_t) (c : Z) (m : mem) : planes_t := fun c' => if c' =? c then m else d c'.
(** The loops over components at tcd.rs:2649-2676, 2746-2757 and others. *)
Definition each_plane (T : tile) (f : Z -> GeomModel.rect -> mem -> mem) (d : planes_t) : planes_t :=
  for_to 0 (count T) (fun c d => match tile_comp T c with Some comp => upd_plane d c (f c comp (d c)) | None => d end) d.

(** The rectangle in the shape DwtModel has it. *)
Definition as_rect (comp : GeomModel.rect) : DwtModel.rect := mkR (fst (fst comp)) (fst (snd comp)) (snd (fst comp)) (snd (snd comp)).

(** ** Encoder *)

(** tcd.rs:2645-2678 *)
Definition shift_in (T : tile) (I : Z -> info) (d : planes_t) : planes_t :=
  each_plane T (fun c comp m => enc_plane (i_shift (I c)) (width (fst comp) * width (snd comp)) m) d.
(** mct.rs:73-94 and tcd.rs:2680-2736 on the planes of the first three components. *)
Definition three (f : Z * Z * Z -> Z * Z * Z) (n : Z) (d : planes_t) : planes_t :=
  for_to 0 n (fun i d =>
    let '(x, y, z) := f (d 0 i, d 1 i, d 2 i) in
    upd_plane (upd_plane (upd_plane d 0 (Mem.upd (d 0) i x)) 1 (Mem.upd (d 1) i y)) 2 (Mem.upd (d 2) i z)) d.
Definition mct_in (T : tile) (mct : bool) (d : planes_t) : option planes_t :=
  if mct then match tile_comp T 0 with Some comp => Some (three (rct_fwd i32) (width (fst comp) * width (snd comp)) d) | None => None end
  else Some d.
(** tcd.rs:2738-2759 with dwt.rs:1155-1246; [tmp] is what the scratch buffers hold. *)
Definition dwt_in (T : tile) (tmp : Z -> mem) (d : planes_t) : planes_t :=
  each_plane T (fun c comp m => fst (dwt_encode (width (fst comp)) (resolutions (as_rect comp) (Z.to_nat (nres (par T c)))) (m, tmp c))) d.
(** tcd.rs:1635-1643: the coefficients the block coder gets. *)
Definition analyse (T : tile) (I : Z -> info) (mct : bool) (tmp : Z -> mem) (d : planes_t) : option planes_t :=
  match mct_in T mct (shift_in T I d) with Some d => Some (dwt_in T tmp d) | None => None end.

(** ** Decoder *)

(** tcd.rs:2156-2205: all components. *)
Definition show_all (psize size : Z) (T : tile) (S : Z -> style) (ds : place -> list dband) (d : planes_t) : option planes_t :=
  for_to 0 (count T) (fun c d =>
    match d with
    | None => None
    | Some d => match show_comp psize size T S ds c (d c) with Some m => Some (upd_plane d c m) | None => None end
    end) (Some d).
(** tcd.rs:2206-2241 with dwt.rs:1446-1523 *)
Definition dwt_out (T : tile) (buf : Z -> mem) (d : planes_t) : planes_t :=
  each_plane T (fun c comp m => fst (dwt_decode_tile (width (fst comp)) (resolutions (as_rect comp) (Z.to_nat (nres (par T c)))) (m, buf c))) d.
(** tcd.rs:2242-2421: with three components or more they must have the same
    number of resolutions and of samples. *)
Definition samples_of (T : tile) (c : Z) : option Z :=
  match tile_comp T c with Some comp => Some (width (fst comp) * width (snd comp)) | None => None end.
Definition mct_out (T : tile) (mct : bool) (d : planes_t) : option planes_t :=
  if negb mct then Some d else if count T <? 3 then Some d else
  match samples_of T 0, samples_of T 1, samples_of T 2 with
  | Some n, Some n1, Some n2 =>
      if (nres (par T 0) =? nres (par T 1)) && (nres (par T 0) =? nres (par T 2)) && (n1 =? n) && (n2 =? n) then Some (three (rct_inv i32) n d) else None
  | _, _, _ => None
  end.
(** tcd.rs:2422-2530; the planes have no stride here. *)
Definition shift_out (T : tile) (I : Z -> info) (d : planes_t) : planes_t :=
  each_plane T (fun c comp m =>
    let w := width (fst comp) in let h := width (snd comp) in
    if (w =? 0) || (h =? 0) then m else
    let '(lo, hi) := range_of (i_sgnd (I c)) (i_prec (I c)) in dec_plane (i_shift (I c)) lo hi w h 0 m) d.
(** tcd.rs:1853-1925 *)
Definition synthesise (psize size : Z) (T : tile) (S : Z -> style) (I : Z -> info) (mct : bool) (buf : Z -> mem) (ds : place -> list dband) (d : planes_t) : option planes_t :=
  match show_all psize size T S ds d with
  | None => None
  | Some d => match mct_out T mct (dwt_out T buf d) with Some d => Some (shift_out T I d) | None => None end
  end.

(** ** The encoder's choice of bit-planes *)

(** math.rs [opj_int_floorlog2] at a positive value. *)
(** dwt.rs:638-653: the exponent. *)
Definition stepsize_expn (stepsize numbps : Z) : Z := numbps - (Z.log2 stepsize - 13).
(** dwt.rs:1356-1414, reversible: [qmfbid] = 1, [qntsty] = 0, step size 1. *)
Definition explicit_expn (n prec : Z) : list Z :=
  map (fun bandno =>
    let o := if bandno =? 0 then 0 else (bandno - 1) mod 3 + 1 in
    let gain := if o =? 0 then 0 else if (o =? 1) || (o =? 2) then 1 else 2 in
    stepsize_expn 8192 (prec + gain)) (upto (3 * n - 2)).
(** j2k.rs:7544: guard bits. *)
Definition default_guard : Z := 2.
