(** Model: the division of a tile into tile-parts by the encoder
    (openjp2-rs/src/j2k.rs [opj_j2k_get_num_tp], pi.rs [opj_pi_create_encode]).
    The iterators are those of PiModel; here their bounds are set tile-part by
    tile-part, and the flag [tp_on] changes what they do.

    One progression (no progression changes), final pass of the packet coder,
    no cinema profile. Panics are [None]. *)

From Coq Require Import ZArith List Bool.
From Verif Require Import Ints Mem PiModel.
Import ListNotations.
Local Open Scope Z_scope.

(** j2k.rs:144-150, 152-161 [ProgressionStep]; the values are those of the
    parameter [tp_flag]. *)
Inductive step := StC | StR | StP | StL | StUnknown.
Definition letter (s : step) : Z :=
  match s with StC => 67 | StR => 82 | StP => 80 | StL => 76 | StUnknown => 0 end.

(** j2k.rs:173-193 [from_c_enum], [get_order]: RPCL is not among the orders
    known, and is turned into [Unknown], which has no steps. *)
Definition known (o : order) : bool := match o with RPCL => false | _ => true end.
Definition steps (o : order) : list step :=
  match o with
  | CPRL => [StC; StP; StR; StL]
  | PCRL => [StP; StC; StR; StL]
  | RLCP => [StR; StL; StC; StP]
  | LRCP => [StL; StR; StC; StP]
  | RPCL => []
  end.
(** j2k.rs:205-211 [get_step] *)
Definition get_step (o : order) (i : nat) : step := nth i (steps o) StUnknown.

(** openjpeg.rs [opj_poc]: the bounds of a progression, the distances of the
    precincts, and where the division into tile-parts has got to ([_t]). *)
Record prog := mkProg {
  g_order : order;
  resS : Z; resE : Z; compS : Z; compE : Z; layS : Z; layE : Z; prcS : Z; prcE : Z;
  txS : Z; txE : Z; tyS : Z; tyE : Z; g_dx : Z; g_dy : Z;
  res_t : Z; comp_t : Z; lay_t : Z; prc_t : Z; tx_t : Z; ty_t : Z }.

(** The bounds of one iterator (field [poc] of pi.rs:32-59). *)
Record window := mkWin {
  w_res0 : Z; w_res1 : Z; w_comp0 : Z; w_comp1 : Z; w_lay0 : Z; w_lay1 : Z; w_prc0 : Z; w_prc1 : Z;
  w_x0 : Z; w_x1 : Z; w_y0 : Z; w_y1 : Z }.

Definition set_res (w : window) (a b : Z) : window :=
  mkWin a b (w_comp0 w) (w_comp1 w) (w_lay0 w) (w_lay1 w) (w_prc0 w) (w_prc1 w) (w_x0 w) (w_x1 w) (w_y0 w) (w_y1 w).
Definition set_comp (w : window) (a b : Z) : window :=
  mkWin (w_res0 w) (w_res1 w) a b (w_lay0 w) (w_lay1 w) (w_prc0 w) (w_prc1 w) (w_x0 w) (w_x1 w) (w_y0 w) (w_y1 w).
Definition set_lay (w : window) (a b : Z) : window :=
  mkWin (w_res0 w) (w_res1 w) (w_comp0 w) (w_comp1 w) a b (w_prc0 w) (w_prc1 w) (w_x0 w) (w_x1 w) (w_y0 w) (w_y1 w).
Definition set_prc (w : window) (a b : Z) : window :=
  mkWin (w_res0 w) (w_res1 w) (w_comp0 w) (w_comp1 w) (w_lay0 w) (w_lay1 w) a b (w_x0 w) (w_x1 w) (w_y0 w) (w_y1 w).
Definition set_x (w : window) (a b : Z) : window :=
  mkWin (w_res0 w) (w_res1 w) (w_comp0 w) (w_comp1 w) (w_lay0 w) (w_lay1 w) (w_prc0 w) (w_prc1 w) a b (w_y0 w) (w_y1 w).
Definition set_y (w : window) (a b : Z) : window :=
  mkWin (w_res0 w) (w_res1 w) (w_comp0 w) (w_comp1 w) (w_lay0 w) (w_lay1 w) (w_prc0 w) (w_prc1 w) (w_x0 w) (w_x1 w) a b.

Definition with_t (p : prog) (r c l k x y : Z) : prog :=
  mkProg (g_order p) (resS p) (resE p) (compS p) (compE p) (layS p) (layE p) (prcS p) (prcE p)
    (txS p) (txE p) (tyS p) (tyE p) (g_dx p) (g_dy p) r c l k x y.
Definition with_res (p : prog) (v : Z) : prog := with_t p v (comp_t p) (lay_t p) (prc_t p) (tx_t p) (ty_t p).
Definition with_comp (p : prog) (v : Z) : prog := with_t p (res_t p) v (lay_t p) (prc_t p) (tx_t p) (ty_t p).
Definition with_lay (p : prog) (v : Z) : prog := with_t p (res_t p) (comp_t p) v (prc_t p) (tx_t p) (ty_t p).
Definition with_prc (p : prog) (v : Z) : prog := with_t p (res_t p) (comp_t p) (lay_t p) v (tx_t p) (ty_t p).
Definition with_x (p : prog) (v : Z) : prog := with_t p (res_t p) (comp_t p) (lay_t p) (prc_t p) v (ty_t p).
Definition with_y (p : prog) (v : Z) : prog := with_t p (res_t p) (comp_t p) (lay_t p) (prc_t p) (tx_t p) v.

(** The numbers of precincts bound the first two orders only ([0 | 1] in
    pi.rs:1862, 2468, 2508, 2553, 2648). *)
Definition by_number (o : order) : bool := match o with LRCP | RLCP => true | _ => false end.

(** pi.rs:2436-2449, 2451-2481: all of a step. *)
Definition all_of_step (p : prog) (w : window) (s : step) : window :=
  match s with
  | StR => set_res w (resS p) (resE p)
  | StC => set_comp w (compS p) (compE p)
  | StL => set_lay w (layS p) (layE p)
  | StP => if by_number (g_order p) then set_prc w (prcS p) (prcE p)
           else set_y (set_x w (txS p) (txE p)) (tyS p) (tyE p)
  | StUnknown => w
  end.

(** [a.wrapping_add(d).wrapping_sub(a.wrapping_rem(d))]; the remainder panics for
    [d = 0], which [min_step] below excludes. *)
Definition up (a d : Z) : Z := u32 (u32 (a + d) - a mod d).
(** [a.wrapping_sub(d).wrapping_sub(a.wrapping_rem(d))] *)
Definition down (a d : Z) : Z := u32 (u32 (a - d) - a mod d).

(** One value of a step, from [t] on. *)
Definition take_res (p : prog) (w : window) : prog * window :=
  (with_res p (inc (res_t p)), set_res w (res_t p) (inc (res_t p))).
Definition take_comp (p : prog) (w : window) : prog * window :=
  (with_comp p (inc (comp_t p)), set_comp w (comp_t p) (inc (comp_t p))).
Definition take_lay (p : prog) (w : window) : prog * window :=
  (with_lay p (inc (lay_t p)), set_lay w (lay_t p) (inc (lay_t p))).
Definition take_prc (p : prog) (w : window) : prog * window :=
  (with_prc p (inc (prc_t p)), set_prc w (prc_t p) (inc (prc_t p))).
Definition take_x (p : prog) (w : window) : prog * window :=
  (with_x p (up (tx_t p) (g_dx p)), set_x w (tx_t p) (up (tx_t p) (g_dx p))).
Definition take_y (p : prog) (w : window) : prog * window :=
  (with_y p (up (ty_t p) (g_dy p)), set_y w (ty_t p) (up (ty_t p) (g_dy p))).

(** pi.rs:2484-2531: the first tile-part starts each step anew. *)
Definition first_of_step (p : prog) (w : window) (s : step) : prog * window :=
  match s with
  | StC => take_comp (with_comp p (compS p)) w
  | StR => take_res (with_res p (resS p)) w
  | StL => take_lay (with_lay p (layS p)) w
  | StP => if by_number (g_order p) then take_prc (with_prc p (prcS p)) w
           else let '(p, w) := take_x (with_y (with_x p (txS p)) (tyS p)) w in take_y p w
  | StUnknown => (p, w)
  end.

(** pi.rs:2539-2569: the other tile-parts first take the value of the one
    before. *)
Definition same_of_step (p : prog) (w : window) (s : step) : window :=
  match s with
  | StC => set_comp w (u32 (comp_t p - 1)) (comp_t p)
  | StR => set_res w (u32 (res_t p - 1)) (res_t p)
  | StL => set_lay w (u32 (lay_t p - 1)) (lay_t p)
  | StP => if by_number (g_order p) then set_prc w (u32 (prc_t p - 1)) (prc_t p)
           else set_y (set_x w (down (tx_t p) (g_dx p)) (tx_t p)) (down (ty_t p) (g_dy p)) (ty_t p)
  | StUnknown => w
  end.

(** pi.rs:1816-1908 [opj_pi_check_next_level]: does a step further out than
    [i] have a value left? [i] is one more than [pos], so that 0 stands for -1. *)
Fixpoint check_next_level (p : prog) (i : nat) : bool :=
  match i with
  | O => false
  | S i =>
      match get_step (g_order p) i with
      | StR => if res_t p =? resE p then check_next_level p i else true
      | StC => if comp_t p =? compE p then check_next_level p i else true
      | StL => if lay_t p =? layE p then check_next_level p i else true
      | StP => if by_number (g_order p) then
                 if prc_t p =? prcE p then check_next_level p i else true
               else if (tx_t p =? txE p) && (ty_t p =? tyE p) then check_next_level p i else true
      | StUnknown => check_next_level p i
      end
  end.

(** pi.rs:2570-2720: the next value of step [i], given [incr_top]. *)
Definition next_of_step (p : prog) (w : window) (i : nat) : prog * window * bool :=
  match get_step (g_order p) i with
  | StR => if res_t p =? resE p then
             if check_next_level p i then (take_res (with_res p (resS p)) w, true) else (p, w, false)
           else (take_res p w, false)
  | StC => if comp_t p =? compE p then
             if check_next_level p i then (take_comp (with_comp p (compS p)) w, true) else (p, w, false)
           else (take_comp p w, false)
  | StL => if lay_t p =? layE p then
             if check_next_level p i then (take_lay (with_lay p (layS p)) w, true) else (p, w, false)
           else (take_lay p w, false)
  | StP => if by_number (g_order p) then
             if prc_t p =? prcE p then
               if check_next_level p i then (take_prc (with_prc p (prcS p)) w, true) else (p, w, false)
             else (take_prc p w, false)
           else if txE p <=? tx_t p then
             if tyE p <=? ty_t p then
               if check_next_level p i then
                 let '(p, w) := take_y (with_y p (tyS p)) w in (take_x (with_x p (txS p)) w, true)
               else (p, w, false)
             else let '(p, w) := take_y p w in (take_x (with_x p (txS p)) w, false)
           else (take_x p w, false)
  | StUnknown => (p, w, true)
  end.

(** pi.rs:2484-2531, 2534-2724: the steps from [n - 1] (the one divided) outwards
    to 0. *)
Fixpoint first_steps (p : prog) (w : window) (n : nat) : prog * window :=
  match n with
  | O => (p, w)
  | S i => let '(p, w) := first_of_step p w (get_step (g_order p) i) in first_steps p w i
  end.
Fixpoint next_steps (p : prog) (w : window) (incr : bool) (n : nat) : prog * window :=
  match n with
  | O => (p, w)
  | S i => let w := same_of_step p w (get_step (g_order p) i) in
           if incr then let '(p, w, incr) := next_of_step p w i in next_steps p w incr i
           else next_steps p w incr i
  end.

(** pi.rs:2412-2726 [opj_pi_create_encode]: the window of tile-part [tpnum]
    when the division is at step [tppos]; without division all of it. The
    fields of a fresh window are 0 ([opj_calloc], 1534). *)
Definition create_encode (tp_on : bool) (p : prog) (tpnum : Z) (tppos : nat) : prog * window :=
  let w := mkWin 0 0 0 0 0 0 0 0 0 0 0 0 in
  if negb tp_on then
    (p, mkWin (resS p) (resE p) (compS p) (compE p) (layS p) (layE p) (prcS p) (prcE p) (txS p) (txE p) (tyS p) (tyE p))
  else
    let w := fold_left (fun w i => all_of_step p w (get_step (g_order p) i)) (seq (S tppos) (3 - tppos)) w in
    if tpnum =? 0 then first_steps p w (S tppos) else next_steps p w true (S tppos).

(** j2k.rs:839-900 [opj_j2k_get_num_tp]: the number of tile-parts, and the step
    at which the division takes place ([m_tp_pos], [pos] before). The variable
    [i] of the code, here [at], stays 0: it is not counted up in the loop. [None]
    is the failing [assert!(prog != ProgressionOrder::Unknown)]. *)
Fixpoint num_tp_loop (flag : Z) (p : prog) (at_ pos : nat) (tpnum : Z) (ss : list step) : Z * nat :=
  match ss with
  | [] => (tpnum, pos)
  | s :: ss =>
      let tpnum := match s with
                   | StC => u32 (tpnum * compE p)
                   | StR => u32 (tpnum * resE p)
                   | StP => u32 (tpnum * prcE p)
                   | StL => u32 (tpnum * layE p)
                   | StUnknown => tpnum
                   end in
      if flag =? letter s then (tpnum, at_) else num_tp_loop flag p at_ pos tpnum ss
  end.
Definition get_num_tp (tp_on : bool) (flag : Z) (p : prog) : option (Z * nat) :=
  if negb (known (g_order p)) then None
  else if tp_on then Some (num_tp_loop flag p 0 0 1 (steps (g_order p)))
  else Some (1, 0%nat).

(** ** The iterators with [tp_on] *)

(** pi.rs:203-206, 309-312: with [tp_on] the last precinct is that of the window,
    not that of the resolution. *)
Definition lrcp_tp (w : window) (g : cfg) (l : seq_label) (s : st) : move seq_label :=
  match l with
  | SP => if pr s <? w_prc1 w then probe g SA s else Goto SK s
  | _ => lrcp g l s
  end.
Definition rlcp_tp (w : window) (g : cfg) (l : seq_label) (s : st) : move seq_label :=
  match l with
  | SP => if pr s <? w_prc1 w then probe g SA s else Goto SK s
  | _ => rlcp g l s
  end.

(** pi.rs:715-720, 1011-1016 and the loops after them: with [tp_on] the
    positions scanned are those of the window, not those of the tile. *)
Definition pcrl_tp (w : window) (g : cfg) (l : pos_label) (s : st) : move pos_label :=
  match l with
  | PY => if w_y1 w <=? y s then Stop s
          else Goto PX (mkSt (lay s) (rs s) (cp s) (pr s) (w_x0 w) (y s) (incl s))
  | PX => if x s <? w_x1 w then Goto PC (mkSt (lay s) (rs s) (comp0 g) (pr s) (x s) (y s) (incl s))
          else Goto PY (mkSt (lay s) (rs s) (cp s) (pr s) (x s) (advance (all_dy g) (y s)) (incl s))
  | _ => pcrl g l s
  end.
Definition cprl_tp (w : window) (g : cfg) (l : pos_label) (s : st) : move pos_label :=
  match l with
  | PO => if comp1 g <=? cp s then Stop s
          else let c := comp_at g (cp s) in
          if (comp_dx 0 c =? 0) || (comp_dy 0 c =? 0) then Stop s
          else Goto PY (mkSt (lay s) (rs s) (cp s) (pr s) (x s) (w_y0 w) (incl s))
  | PY => if y s <? w_y1 w then Goto PX (mkSt (lay s) (rs s) (cp s) (pr s) (w_x0 w) (y s) (incl s))
          else Goto PO (mkSt (lay s) (rs s) (inc (cp s)) (pr s) (x s) (y s) (incl s))
  | PX => if x s <? w_x1 w then Goto PT (mkSt (lay s) (res0 g) (cp s) (pr s) (x s) (y s) (incl s))
          else Goto PY (mkSt (lay s) (rs s) (cp s) (pr s) (x s) (advance (comp_dy 0 (comp_at g (cp s))) (y s)) (incl s))
  | _ => cprl g l s
  end.

(** pi.rs:2830-2841 [opj_pi_next], with [tp_on]; RPCL does not get here. *)
Definition next_tp (w : window) (g : cfg) (o : order) (fuel : nat) (first : bool) (s : st) : option (bool * st) :=
  if bad_comps g then Some (false, s)
  else
    let stuck := first && ((all_dx g =? 0) || (all_dy g =? 0)) in
    match o with
    | LRCP => if first then go (lrcp_tp w g) fuel SO (mkSt (lay0 g) (rs s) (cp s) (pr s) (x s) (y s) (incl s))
              else go (lrcp_tp w g) fuel SA s
    | RLCP => if first then go (rlcp_tp w g) fuel SO (mkSt (lay s) (res0 g) (cp s) (pr s) (x s) (y s) (incl s))
              else go (rlcp_tp w g) fuel SA s
    | PCRL => if stuck then Some (false, s)
              else if first then go (pcrl_tp w g) fuel PY (mkSt (lay s) (rs s) (cp s) (pr s) (x s) (w_y0 w) (incl s))
              else go (pcrl_tp w g) fuel PA s
    | CPRL => if first then go (cprl_tp w g) fuel PO (mkSt (lay s) (rs s) (comp0 g) (pr s) (x s) (y s) (incl s))
              else go (cprl_tp w g) fuel PA s
    | RPCL => None
    end.

(** t2.rs:249: [while opj_pi_next(l_current_pi) != 0]. *)
Fixpoint drain_tp (w : window) (g : cfg) (o : order) (n fuel : nat) (first : bool) (s : st) : option (list packet) :=
  match n with
  | O => None
  | S n => match next_tp w g o fuel first s with
           | None => None
           | Some (false, _) => Some []
           | Some (true, s) => option_map (cons (here s)) (drain_tp w g o n fuel false s)
           end
  end.

(** pi.rs:2182-2409 [opj_pi_initialise_encode] with the bounds of the window. *)
Definition part_cfg (tx0 ty0 tx1 ty1 layers : Z) (ps : list params) (w : window) : cfg :=
  let cs := map (make_comp tx0 ty0 tx1 ty1) ps in
  let sp := 1 in
  let sc := u32 (max_prec cs * sp) in
  let sr := u32 (Z.of_nat (length cs) * sc) in
  let sl := u32 (max_res cs * sr) in
  mkCfg cs tx0 ty0 tx1 ty1 sl sr sc sp (u32 (layers * sl))
    (w_lay0 w) (w_lay1 w) (w_res0 w) (w_res1 w) (w_comp0 w) (w_comp1 w) (w_prc0 w).

(** pi.rs:1386-1389, 1425-1458 of [opj_get_all_encoding_parameters]: the smallest
    distances of precincts, at most 0x7fffffff. *)
Definition min_dx (cs : list comp) : Z := fold_left comp_dx cs (2 ^ 31 - 1).
Definition min_dy (cs : list comp) : Z := fold_left comp_dy cs (2 ^ 31 - 1).

(** pi.rs:1686-1737 [opj_pi_update_encode_not_poc]: the progression of a tile;
    the [_t] fields are 0 at first. *)
Definition whole_prog (tx0 ty0 tx1 ty1 layers : Z) (ps : list params) (o : order) : prog :=
  let cs := map (make_comp tx0 ty0 tx1 ty1) ps in
  mkProg o 0 (max_res cs) 0 (Z.of_nat (length ps)) 0 layers 0 (max_prec cs) tx0 tx1 ty0 ty1 (min_dx cs) (min_dy cs)
    0 0 0 0 0 0.

(** j2k.rs:12655-12734 (tile-part 0) and 12761-12829 (the others): the packets of
    each tile-part. [k] is [m_current_poc_tile_part_number], given to
    [opj_pi_create_encode] as [tpnum] (tcd.rs:2786-2803, t2.rs:223); the field
    [include] is newly cleared for each. *)
Fixpoint part_loop (tp_on : bool) (tx0 ty0 tx1 ty1 layers : Z) (ps : list params) (n fuel : nat) (tppos : nat)
    (p : prog) (k : Z) (count : nat) : option (list (list packet)) :=
  match count with
  | O => Some []
  | S count =>
      let '(p, w) := create_encode tp_on p k tppos in
      let g := part_cfg tx0 ty0 tx1 ty1 layers ps w in
      let s := mkSt 0 0 0 0 0 0 (fun _ => 0) in
      match (if tp_on then drain_tp w g (g_order p) n fuel true s
             else option_map fst (drain g (g_order p) n fuel true s)) with
      | None => None
      | Some l => option_map (cons l) (part_loop tp_on tx0 ty0 tx1 ty1 layers ps n fuel tppos p (k + 1) count)
      end
  end.

(** The first tile-part is written whatever the number of them. *)
Definition tile_parts (tp_on : bool) (flag : Z) (tx0 ty0 tx1 ty1 layers : Z) (ps : list params) (o : order)
    (n fuel : nat) : option (list (list packet)) :=
  let p := whole_prog tx0 ty0 tx1 ty1 layers ps o in
  match get_num_tp tp_on flag p with
  | None => None
  | Some (tpnum, tppos) => part_loop tp_on tx0 ty0 tx1 ty1 layers ps n fuel tppos p 0 (Nat.max 1 (Z.to_nat tpnum))
  end.
