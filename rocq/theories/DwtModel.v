(** Model of the reversible 5/3 wavelet transform, openjp2-rs/src/dwt.rs.

    Memory regions are total functions [mem] from indices to words; a pointer
    into a region is an index. [i32] wraps as a release build does. Allocation
    failure is not modelled; scratch buffers have arbitrary initial contents. *)

From Coq Require Import ZArith List Bool.
From Verif Require Import I32 Mem.
Import ListNotations.
Local Open Scope Z_scope.

Definition u32 (x : Z) : Z := x mod 2 ^ 32.
(** [>>] on [i32]. *)
Definition sar (x n : Z) : Z := Z.shiftr x n.

(** The two lifting terms that occur throughout:
    [(a + b) >> 1] and [(a + b + 2) >> 2]. *)
Definition half (a b : Z) : Z := sar (i32 (a + b)) 1.
Definition quarter (a b : Z) : Z := sar (i32 (i32 (a + b) + 2)) 2.

(** ** Inverse transform of one line *)

(** dwt.rs:61-67 [sn_idx], [dn_idx]: [i.clamp(0, n - 1)].  ([clamp] panics for
    n = 0; then the total function below is used, see DESIGN.md.) *)
Definition clamp (n i : Z) : Z := Z.max 0 (Z.min i (n - 1)).

(** dwt.rs:389-418 [opj_dwt_interleave_h] ([stride] = 1) and 423-450
    [opj_dwt_interleave_v] (the same with a stride). *)
Definition interleave (sn dn cas : Z) (m : mem) (a stride : Z) (buf : mem) : mem :=
  let buf := for_to 0 sn (fun i buf => upd buf (cas + 2 * i) (m (a + i * stride))) buf in
  for_to 0 dn (fun i buf => upd buf (1 - cas + 2 * i) (m (a + sn * stride + i * stride))) buf.

(** dwt.rs:134-158 [decode_1]. [s_idx i] is [2 i], [d_idx i] is [1 + 2 i]. *)
Definition decode_1 (sn dn cas : Z) (buf : mem) : mem :=
  if cas =? 0 then
    if (0 <? dn) || (1 <? sn) then
      let buf := for_to 0 sn (fun i buf =>
        upd buf (2 * i) (i32 (buf (2 * i) - quarter (buf (1 + 2 * clamp dn (i - 1))) (buf (1 + 2 * clamp dn i))))) buf in
      for_to 0 dn (fun i buf =>
        upd buf (1 + 2 * i) (i32 (buf (1 + 2 * i) + half (buf (2 * clamp sn i)) (buf (2 * clamp sn (i + 1)))))) buf
    else buf
  else if (sn =? 0) && (dn =? 1) then upd buf 0 (Z.quot (buf 0) 2)
  else
    let buf := for_to 0 sn (fun i buf =>
      upd buf (1 + 2 * i) (i32 (buf (1 + 2 * i) - quarter (buf (2 * clamp dn i)) (buf (2 * clamp dn (i + 1)))))) buf in
    for_to 0 dn (fun i buf =>
      upd buf (2 * i) (i32 (buf (2 * i) + half (buf (1 + 2 * clamp sn i)) (buf (1 + 2 * clamp sn (i - 1)))))) buf.

(** dwt.rs:456-465 [opj_idwt53_h]. *)
Definition idwt_h (sn dn cas : Z) (a : Z) (st : mem * mem) : mem * mem :=
  let '(m, buf) := st in
  let buf := decode_1 sn dn cas (interleave sn dn cas m a 1 buf) in
  (for_to 0 (sn + dn) (fun k m => upd m (a + k) (buf k)) m, buf).

(** dwt.rs:471-491 [opj_idwt53_v]; the loop over the columns. *)
Definition idwt_v (sn dn cas : Z) (a stride nb_cols : Z) (st : mem * mem) : mem * mem :=
  for_to 0 nb_cols (fun c st =>
    let '(m, buf) := st in
    let buf := decode_1 sn dn cas (interleave sn dn cas m (a + c) stride buf) in
    (for_to 0 (sn + dn) (fun k m => upd m (a + (c + k * stride)) (buf k)) m, buf)) st.

(** ** Forward transform of one row *)

(** dwt.rs:659-746 [opj_dwt_encode_and_deinterleave_h_one_row]; [b] is the row
    pointer. Loop variables left over by a loop appear as [Z.max]. *)
Definition fdwt_h (b width : Z) (even : bool) (st : mem * mem) : mem * mem :=
  let '(m, tmp) := st in
  let sn := (width + (if even then 1 else 0)) / 2 in
  let dn := width - sn in
  if even then
    if 1 <? width then
      let tmp := for_to 0 (sn - 1) (fun i tmp =>
        upd tmp (sn + i) (i32 (m (b + (2 * i + 1)) - half (m (b + i * 2)) (m (b + (i + 1) * 2))))) tmp in
      let i := Z.max 0 (sn - 1) in
      let tmp := if width mod 2 =? 0
                 then upd tmp (sn + i) (i32 (m (b + (2 * i + 1)) - m (b + i * 2))) else tmp in
      let m := upd m b (i32 (m b + quarter (tmp sn) (tmp sn))) in
      let m := for_to 1 dn (fun i m =>
        upd m (b + i) (i32 (m (b + 2 * i) + quarter (tmp (sn + (i - 1))) (tmp (sn + i))))) m in
      let i := Z.max 1 dn in
      let m := if width mod 2 =? 1
               then upd m (b + i) (i32 (m (b + 2 * i) + quarter (tmp (sn + (i - 1))) (tmp (sn + (i - 1))))) else m in
      (for_to 0 dn (fun k m => upd m (b + (sn + k)) (tmp (sn + k))) m, tmp)
    else (m, tmp)
  else if width =? 1 then (upd m b (i32 (m b * 2)), tmp)
  else
    let tmp := upd tmp sn (i32 (m b - m (b + 1))) in
    let tmp := for_to 1 sn (fun i tmp =>
      upd tmp (sn + i) (i32 (m (b + 2 * i) - half (m (b + (2 * i + 1))) (m (b + (2 * (i - 1) + 1)))))) tmp in
    let i := Z.max 1 sn in
    let tmp := if width mod 2 =? 1
               then upd tmp (sn + i) (i32 (m (b + 2 * i) - m (b + (2 * (i - 1) + 1)))) else tmp in
    let m := for_to 0 (dn - 1) (fun i m =>
      upd m (b + i) (i32 (m (b + (2 * i + 1)) + quarter (tmp (sn + i)) (tmp (sn + i + 1))))) m in
    let i := Z.max 0 (dn - 1) in
    let m := if width mod 2 =? 0
             then upd m (b + i) (i32 (m (b + (2 * i + 1)) + quarter (tmp (sn + i)) (tmp (sn + i)))) else m in
    (for_to 0 dn (fun k m => upd m (b + (sn + k)) (tmp (sn + k))) m, tmp).

(** ** Forward transform of up to eight columns *)

(** dwt.rs:784-822 [opj_dwt_fetch_cols_vertical_pass]; unused columns of the
    scratch buffer are cleared. *)
Definition fetch_cols (m : mem) (a height stride cols : Z) (tmp : mem) : mem :=
  for_to 0 height (fun k tmp =>
    let tmp := for_to 0 cols (fun c tmp => upd tmp (8 * k + c) (m (a + u32 (c + u32 (k * stride))))) tmp in
    for_to cols 8 (fun c tmp => upd tmp (8 * k + c) 0) tmp) tmp.

(** dwt.rs:828-867 [opj_dwt_deinterleave_v_cols]. *)
Definition deinterleave_cols (tmp : mem) (dn sn stride cas cols : Z) (a : Z) (m : mem) : mem :=
  let m := for_to 0 sn (fun i m =>
    for_to 0 cols (fun c m => upd m (a + i * stride + c) (tmp (cas * 8 + i * 16 + c))) m) m in
  for_to 0 dn (fun i m =>
    for_to 0 cols (fun c m => upd m (a + sn * stride + i * stride + c) (tmp ((1 - cas) * 8 + i * 16 + c))) m) m.

(** [_sc], [_dc] of dwt.rs:892-903. *)
Definition sc (i c : Z) : Z := i * 2 * 8 + c.
Definition dc (i c : Z) : Z := (1 + i * 2) * 8 + c.
(** One lifting step on all eight columns: [x -= t] or [x += t]. *)
Definition each8 (f : Z -> mem -> mem) (tmp : mem) : mem := for_to 0 8 f tmp.
Definition sub_at (tmp : mem) (x v : Z) : mem := upd tmp x (i32 (tmp x - v)).
Definition add_at (tmp : mem) (x v : Z) : mem := upd tmp x (i32 (tmp x + v)).

(** dwt.rs:907-980, the lifting steps of [opj_dwt_encode_and_deinterleave_v]. *)
Definition lift_v (height sn dn : Z) (even : bool) (tmp : mem) : mem :=
  if even then
    if 1 <? height then
      let tmp := for_to 0 (sn - 1) (fun i => each8 (fun c t => sub_at t (dc i c) (half (t (sc i c)) (t (sc (i + 1) c))))) tmp in
      let i := Z.max 0 (sn - 1) in
      let tmp := if height mod 2 =? 0 then each8 (fun c t => sub_at t (dc i c) (t (sc i c))) tmp else tmp in
      let tmp := each8 (fun c t => add_at t (sc 0 c) (quarter (t (dc 0 c)) (t (dc 0 c)))) tmp in
      let tmp := for_to 1 dn (fun i => each8 (fun c t => add_at t (sc i c) (quarter (t (dc (i - 1) c)) (t (dc i c))))) tmp in
      let i := Z.max 1 dn in
      if height mod 2 =? 1
      then each8 (fun c t => add_at t (sc i c) (quarter (t (dc (i - 1) c)) (t (dc (i - 1) c)))) tmp else tmp
    else tmp
  else if height =? 1 then each8 (fun c t => upd t (sc 0 c) (i32 (t (sc 0 c) * 2))) tmp
  else
    let tmp := each8 (fun c t => sub_at t (sc 0 c) (t (dc 0 c))) tmp in
    let tmp := for_to 1 sn (fun i => each8 (fun c t => sub_at t (sc i c) (half (t (dc i c)) (t (dc (i - 1) c))))) tmp in
    let i := Z.max 1 sn in
    let tmp := if height mod 2 =? 1 then each8 (fun c t => sub_at t (sc i c) (t (dc (i - 1) c))) tmp else tmp in
    let tmp := for_to 0 (dn - 1) (fun i => each8 (fun c t => add_at t (dc i c) (quarter (t (sc i c)) (t (sc (i + 1) c))))) tmp in
    let i := Z.max 0 (dn - 1) in
    if height mod 2 =? 0 then each8 (fun c t => add_at t (dc i c) (quarter (t (sc i c)) (t (sc i c)))) tmp else tmp.

(** dwt.rs:871-1006 [opj_dwt_encode_and_deinterleave_v]. *)
Definition fdwt_v (a height : Z) (even : bool) (stride cols : Z) (st : mem * mem) : mem * mem :=
  let '(m, tmp) := st in
  let sn := (height + (if even then 1 else 0)) / 2 in
  let dn := height - sn in
  let tmp := fetch_cols m a height stride cols tmp in
  let tmp := lift_v height sn dn even tmp in
  (deinterleave_cols tmp dn sn stride (if even then 0 else 1) cols a m, tmp).

(** ** Whole tile components *)

(** A resolution's rectangle: x0, y0, x1, y1. *)
Record rect := mkR { x0 : Z; y0 : Z; x1 : Z; y1 : Z }.

(** dwt.rs:1205-1241, one iteration of the loop of [opj_dwt_encode_procedure].
    The columns are processed eight at a time, then the rest; the first loop is
    written as an iteration over the blocks of eight. *)
Definition encode_vpass (w : Z) (r : rect) (st : mem * mem) : mem * mem :=
  let rw := x1 r - x0 r in
  let rh := y1 r - y0 r in
  let cas_col := y0 r mod 2 in
  let st := for_to 0 (rw / 8) (fun k st => fdwt_v (8 * k) rh (cas_col =? 0) w 8 st) st in
  let j := 8 * (rw / 8) in
  if j <? rw then fdwt_v j rh (cas_col =? 0) w (rw - j) st else st.
Definition encode_hpass (w : Z) (r : rect) (st : mem * mem) : mem * mem :=
  let rw := x1 r - x0 r in
  let rh := y1 r - y0 r in
  let cas_row := x0 r mod 2 in
  for_to 0 rh (fun j st => fdwt_h (u32 (j * w)) rw (cas_row =? 0) st) st.
Definition encode_level (w : Z) (r : rect) (st : mem * mem) : mem * mem :=
  encode_hpass w r (encode_vpass w r st).

(** dwt.rs:1155-1246 [opj_dwt_encode_procedure]: all resolutions from the
    highest to the second ([rs] lists them lowest first). *)
Definition dwt_encode (w : Z) (rs : list rect) (st : mem * mem) : mem * mem :=
  fold_left (fun st r => encode_level w r st) (rev (tl rs)) st.

(** dwt.rs:1489-1519, one iteration of the loop of [opj_dwt_decode_tile];
    [lo] is the rectangle of the resolution below. *)
Definition decode_hpass (w : Z) (lo r : rect) (st : mem * mem) : mem * mem :=
  let rw := x1 r - x0 r in
  let rh := y1 r - y0 r in
  let hsn := x1 lo - x0 lo in
  for_to 0 rh (fun j st => idwt_h hsn (rw - hsn) (Z.rem (x0 r) 2) (j * w) st) st.
Definition decode_vpass (w : Z) (lo r : rect) (st : mem * mem) : mem * mem :=
  let rw := x1 r - x0 r in
  let rh := y1 r - y0 r in
  let vsn := y1 lo - y0 lo in
  let vcas := Z.rem (y0 r) 2 in
  let st := for_to 0 (rw / 8) (fun k st => idwt_v vsn (rh - vsn) vcas (8 * k) w 8 st) st in
  let j := 8 * (rw / 8) in
  if j <? rw then idwt_v vsn (rh - vsn) vcas j w (rw - j) st else st.
Definition decode_level (w : Z) (lo r : rect) (st : mem * mem) : mem * mem :=
  decode_vpass w lo r (decode_hpass w lo r st).

Fixpoint decode_levels (w : Z) (lo : rect) (rs : list rect) (st : mem * mem) : mem * mem :=
  match rs with
  | [] => st
  | r :: rs => decode_levels w r rs (decode_level w lo r st)
  end.

(** dwt.rs:1446-1523 [opj_dwt_decode_tile] on the resolutions [rs] (lowest
    first) to be decoded; [w] is the width of the highest of them. *)
Definition dwt_decode_tile (w : Z) (rs : list rect) (st : mem * mem) : mem * mem :=
  match rs with
  | [] => st
  | lo :: rs => if w =? 0 then st else decode_levels w lo rs st
  end.

(** math.rs:85-87 [opj_int_ceildivpow2]; the result fits for 0 <= a < 2^31. *)
Definition ceildivpow2 (a b : Z) : Z := Z.shiftr (a + Z.shiftl 1 b - 1) b.

(** tcd.rs:953-969: the rectangle of the resolution [l] levels below the tile
    component, and all [n] resolutions, lowest first. *)
Definition res_rect (t : rect) (l : Z) : rect :=
  mkR (ceildivpow2 (x0 t) l) (ceildivpow2 (y0 t) l) (ceildivpow2 (x1 t) l) (ceildivpow2 (y1 t) l).
Definition resolutions (t : rect) (n : nat) : list rect := map (fun l => res_rect t (Z.of_nat l)) (rev (seq 0 n)).
