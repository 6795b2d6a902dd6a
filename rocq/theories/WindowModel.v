(** Model of the inverse 5/3 wavelet transform restricted to a window of a tile
    component, openjp2-rs/src/dwt.rs:160-262 and 1525-2102.

    The horizontal and the vertical computations of windows are textually the
    same and modelled once. The scratch buffer has arbitrary contents; a pointer
    into it is an index. [None] is the error return or a failed assertion; the
    allocation of a block of the sparse array is as in SparseModel, other
    allocations succeed. *)

From Coq Require Import ZArith List Bool.
From Verif Require Import I32 Ints Mem DwtModel SparseModel MathModel GeomModel.
Import ListNotations.
Local Open Scope Z_scope.
Local Notation u32 := Ints.u32.

(** ** One line *)

(** [for off in 0..k] *)
Definition lanes (k : Z) (f : Z -> mem -> mem) (buf : mem) : mem := for_to 0 k f buf.

(** dwt.rs:160-195 [decode_partial_1] (with [k] = 1) and 197-262
    [decode_partial_1_parallel] ([k] = 4 lines side by side). [s_idx i] is
    [2 i k], [d_idx i] is [(1 + 2 i) k]. *)
Definition decode_partial (k sn dn cas l0 l1 h0 h1 : Z) (buf : mem) : mem :=
  if cas =? 0 then
    if (0 <? dn) || (1 <? sn) then
      let buf := for_to l0 l1 (fun i => lanes k (fun c buf =>
        upd buf (2 * i * k + c) (i32 (buf (2 * i * k + c) -
          quarter (buf ((1 + 2 * clamp dn (i - 1)) * k + c)) (buf ((1 + 2 * clamp dn i) * k + c)))))) buf in
      for_to h0 h1 (fun i => lanes k (fun c buf =>
        upd buf ((1 + 2 * i) * k + c) (i32 (buf ((1 + 2 * i) * k + c) +
          half (buf (2 * clamp sn i * k + c)) (buf (2 * clamp sn (i + 1) * k + c)))))) buf
    else buf
  else if (sn =? 0) && (dn =? 1) then lanes k (fun c buf => upd buf c (Z.quot (buf c) 2)) buf
  else
    let buf := for_to l0 l1 (fun i => lanes k (fun c buf =>
      upd buf ((1 + 2 * i) * k + c) (i32 (buf ((1 + 2 * i) * k + c) -
        quarter (buf (2 * clamp dn i * k + c)) (buf (2 * clamp dn (i + 1) * k + c)))))) buf in
    for_to h0 h1 (fun i => lanes k (fun c buf =>
      upd buf (2 * i * k + c) (i32 (buf (2 * i * k + c) +
        half (buf ((1 + 2 * clamp sn i) * k + c)) (buf ((1 + 2 * clamp sn (i - 1)) * k + c)))))) buf.

(** ** The window on one axis of one level *)

(** dwt.rs:1607-1678 [opj_dwt_get_band_coordinates], one coordinate [tc] of the
    tile component, mapped to a sub-band; [o] is [x0b] or [y0b], [n] the number
    of resolutions of the tile component. *)
Definition band_coord (n resno o tc : Z) : Z :=
  let nb := if resno =? 0 then u32 (n - 1) else u32 (n - resno) in
  if nb =? 0 then tc
  else
    let d := u32 (shl_u32 1 (u32 (nb - 1)) * o) in
    if tc <=? d then 0 else uint_ceildivpow2 (u32 (tc - d)) nb.

(** dwt.rs:1680-1689 [opj_dwt_segment_grow] with [filter_width] = 2. *)
Definition grow (max : Z) (s : Z * Z) : Z * Z := (uint_subs (fst s) 2, Z.min (uint_adds (snd s) 2) max).

Record axis := mkAxis {
  a_n : Z; (** [rw] or [rh] *)
  a_sn : Z; a_dn : Z; a_cas : Z;
  a_low : Z * Z; (** [win_ll_x0], [win_ll_x1] *)
  a_high : Z * Z; (** [win_hl_x0], [win_hl_x1] or [win_lh_y0], [win_lh_y1] *)
  a_out : Z * Z (** [win_tr_x0], [win_tr_x1] *) }.

(** dwt.rs:1866-1872, 1873-1974: level [resno] of the axis [c] of a tile
    component, with the window [win]. [bands[1].x0] is that of LH, which is
    low-pass horizontally, and so on. *)
Definition size_of (e : Z * Z) : Z := u32 (i32 (snd e - fst e)).
Definition level_axis (n resno : Z) (c win : Z * Z) : axis :=
  let r := res_axis c (n - 1 - resno) in
  let rn := size_of r in
  let sn := i32 (size_of (res_axis c (n - 1 - (resno - 1)))) in
  let dn := i32 (u32 (rn - u32 sn)) in
  let cas := Z.rem (fst r) 2 in
  let lo := u32 (fst (band_axis resno c (n - 1 - resno) 0)) in
  let hi := u32 (fst (band_axis resno c (n - 1 - resno) 1)) in
  let low := (uint_subs (band_coord n resno 0 (fst win)) lo, uint_subs (band_coord n resno 0 (snd win)) lo) in
  let high := (uint_subs (band_coord n resno 1 (fst win)) hi, uint_subs (band_coord n resno 1 (snd win)) hi) in
  let low := grow (u32 sn) low in
  let high := grow (u32 dn) high in
  let out :=
    if cas =? 0
    then (Z.min (u32 (2 * fst low)) (u32 (u32 (2 * fst high) + 1)), Z.min (Z.max (u32 (2 * snd low)) (u32 (u32 (2 * snd high) + 1))) rn)
    else (Z.min (u32 (2 * fst high)) (u32 (u32 (2 * fst low) + 1)), Z.min (Z.max (u32 (2 * snd high)) (u32 (u32 (2 * snd low) + 1))) rn) in
  mkAxis rn sn dn cas low high out.

(** ** Levels *)

(** A pointer [o] cells into a buffer, and the buffer after a callee had it. *)
Definition from (o : Z) (m : mem) : mem := fun x => m (o + x).
Definition into (o : Z) (m : mem) : mem := fun x => m (x - o).

(** [opj_sparse_array_int32_read] to [dest + o], then the assertion. *)
Definition fetch (sa : sparse) (x0 y0 x1 y1 o cs ls : Z) (buf : mem) : option mem :=
  let '(ret, b) := read sa x0 y0 x1 y1 (from o buf) cs ls 1 in if ret =? 0 then None else Some (into o b).
(** [opj_sparse_array_int32_write] from [src + o]. *)
Definition store (alloc : Z -> bool) (sa : sparse) (x0 y0 x1 y1 o cs ls : Z) (buf : mem) : option sparse :=
  let '(ret, sa) := write alloc sa x0 y0 x1 y1 (from o buf) cs ls 1 in if ret =? 0 then None else Some sa.

(** dwt.rs:1525-1564 [opj_dwt_interleave_partial_h]. *)
Definition interleave_partial_h (a : axis) (sa : sparse) (j : Z) (buf : mem) : option mem :=
  match fetch sa (fst (a_low a)) j (snd (a_low a)) (u32 (j + 1)) (a_cas a + u32 (2 * fst (a_low a))) 2 0 buf with
  | None => None
  | Some buf =>
      let sn := u32 (a_sn a) in
      fetch sa (u32 (sn + fst (a_high a))) j (u32 (sn + snd (a_high a))) (u32 (j + 1)) (1 - a_cas a + u32 (2 * fst (a_high a))) 2 0 buf
  end.
(** dwt.rs:1566-1605 [opj_dwt_interleave_partial_v]. *)
Definition interleave_partial_v (a : axis) (sa : sparse) (col cols : Z) (buf : mem) : option mem :=
  match fetch sa col (fst (a_low a)) (u32 (col + cols)) (snd (a_low a)) (a_cas a * 4 + u32 (8 * fst (a_low a))) 1 8 buf with
  | None => None
  | Some buf =>
      let sn := u32 (a_sn a) in
      fetch sa col (u32 (sn + fst (a_high a))) (u32 (col + cols)) (u32 (sn + snd (a_high a))) ((1 - a_cas a) * 4 + u32 (8 * fst (a_high a))) 1 8 buf
  end.
Definition decode_axis (k : Z) (a : axis) (buf : mem) : mem :=
  decode_partial k (a_sn a) (a_dn a) (a_cas a) (i32 (fst (a_low a))) (i32 (snd (a_low a))) (i32 (fst (a_high a))) (i32 (snd (a_high a))) buf.

(** dwt.rs:1978-1982 *)
Definition row_wanted (v : axis) (j : Z) : bool :=
  (fst (a_low v) <=? j) && (j <? snd (a_low v)) ||
  (u32 (fst (a_high v) + u32 (a_sn v)) <=? j) && (j <? u32 (snd (a_high v) + u32 (a_sn v))).

(** dwt.rs:1990-1995 *)
Definition clear_end (h : axis) (buf : mem) : mem :=
  let t1 := snd (a_out h) in
  let buf := if (1 <=? t1) && (t1 <? a_n h) then upd buf (u32 (t1 - 1)) 0 else buf in
  if t1 <? a_n h then upd buf t1 0 else buf.

Definition state : Type := sparse * mem.
Definition bind {A B : Type} (o : option A) (f : A -> option B) : option B := match o with Some a => f a | None => None end.

(** dwt.rs:1976-2035: the rows. *)
Definition partial_row (alloc : Z -> bool) (h v : axis) (j : Z) (st : state) : option state :=
  let '(sa, buf) := st in
  if row_wanted v j then
    bind (interleave_partial_h h sa j (clear_end h buf)) (fun buf =>
    let buf := decode_axis 1 h buf in
    bind (store alloc sa (fst (a_out h)) j (snd (a_out h)) (u32 (j + 1)) (fst (a_out h)) 1 0 buf) (fun sa => Some (sa, buf)))
  else Some st.
Definition partial_rows (alloc : Z -> bool) (h v : axis) (st : option state) : option state :=
  for_to 0 (a_n v) (fun j st => bind st (partial_row alloc h v j)) st.

(** dwt.rs:2036-2078: the columns, four at a time. *)
Definition partial_cols (alloc : Z -> bool) (h v : axis) (st : option state) : option state :=
  let '(t0, t1) := a_out h in
  for_to 0 ((t1 - t0 + 3) / 4) (fun q st =>
    let i := t0 + 4 * q in
    let cols := Z.min 4 (u32 (t1 - i)) in
    bind st (fun st => let '(sa, buf) := st in
    bind (interleave_partial_v v sa i cols buf) (fun buf =>
    let buf := decode_axis 4 v buf in
    bind (store alloc sa i (fst (a_out v)) (u32 (i + cols)) (snd (a_out v)) (u32 (4 * fst (a_out v))) 1 4 buf) (fun sa => Some (sa, buf))))) st.

(** dwt.rs:1843-2080: one level. *)
Definition partial_level (alloc : Z -> bool) (comp win : rect) (n resno : Z) (st : option state) : option state :=
  let h := level_axis n resno (fst comp) (fst win) in
  let v := level_axis n resno (snd comp) (snd win) in
  partial_cols alloc h v (partial_rows alloc h v st).

(** ** Code-blocks *)

(** A code-block that has been decoded: resolution, [bandno] of the band (0 to
    3), extent, and [decoded_data]. *)
Record dblock := mkDblock { k_res : Z; k_band : Z; k_rect : rect; k_data : mem }.

(** tcd.rs:1063-1091: the band's first coordinate on an axis. *)
Definition band_start (c : Z * Z) (n resno o : Z) : Z := fst (band_axis resno c (n - 1 - resno) o).
(** dwt.rs:1731-1751 *)
Definition block_axis_at (c : Z * Z) (n resno o b0 : Z) : Z :=
  let x := u32 (i32 (b0 - band_start c n resno o)) in
  if o =? 0 then x else u32 (x + size_of (res_axis c (n - 1 - (resno - 1)))).
(** dwt.rs:1730-1768: one block. *)
Definition put_block (alloc : Z -> bool) (comp : rect) (n : Z) (b : dblock) (sa : sparse) : option sparse :=
  let x := block_axis_at (fst comp) n (k_res b) (Z.land (k_band b) 1) (fst (fst (k_rect b))) in
  let y := block_axis_at (snd comp) n (k_res b) (Z.shiftr (k_band b) 1) (fst (snd (k_rect b))) in
  let w := size_of (fst (k_rect b)) in let h := size_of (snd (k_rect b)) in
  store alloc sa x y (u32 (x + w)) (u32 (y + h)) 0 1 w (k_data b).
(** dwt.rs:1691-1778 [opj_dwt_init_sparse_array]: the blocks with data, in the
    order of resolutions, bands, precincts and blocks. *)
Definition init_sparse (alloc : Z -> bool) (comp : rect) (n numres : Z) (bs : list dblock) : option sparse :=
  let top := GeomModel.res_rect comp n (numres - 1) in
  let w := size_of (fst top) in let h := size_of (snd top) in
  fold_left (fun sa b => bind sa (put_block alloc comp n b)) bs (create w h (Z.min w 64) (Z.min h 64)).

(** ** The tile component *)

(** tcd.rs:1790-1825: the window at a resolution, one axis. *)
Definition win_axis (win : Z * Z) (n resno : Z) : Z * Z :=
  let l := u32 (u32 (n - 1) - resno) in (uint_ceildivpow2 (fst win) l, uint_ceildivpow2 (snd win) l).
(** dwt.rs:1817-1828, 2082-2092 *)
Definition read_window (top w : rect) (sa : sparse) (data : mem) : option mem :=
  fetch sa (u32 (fst (fst w) - u32 (fst (fst top)))) (u32 (fst (snd w) - u32 (fst (snd top))))
    (u32 (snd (fst w) - u32 (fst (fst top)))) (u32 (snd (snd w) - u32 (fst (snd top)))) 0 1 (u32 (snd (fst w) - fst (fst w))) data.

(** dwt.rs:1780-2102 [opj_dwt_decode_partial_tile]: [numres] of the [n]
    resolutions are decoded; [win] is [tilec->win_*], [data] what
    [tilec->data_win] points to, [buf] what the scratch buffer holds. *)
Definition decode_partial_tile (alloc : Z -> bool) (comp win : rect) (n numres : Z) (bs : list dblock) (buf data : mem) : option mem :=
  let top := GeomModel.res_rect comp n (numres - 1) in
  let w := (win_axis (fst win) n (numres - 1), win_axis (snd win) n (numres - 1)) in
  if (fst (fst top) =? snd (fst top)) || (fst (snd top) =? snd (snd top)) then Some data
  else
    bind (init_sparse alloc comp n numres bs) (fun sa =>
    if numres =? 1 then read_window top w sa data
    else
      bind (for_to 1 numres (partial_level alloc comp win n) (Some (sa, buf))) (fun st =>
      read_window top w (fst st) data)).
