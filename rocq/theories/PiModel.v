(** Model of the packet iterator, openjp2-rs/src/pi.rs, in a release build
    (wrapping arithmetic, shift amounts masked).

    Each [opj_pi_next_*] is a set of loops entered in the middle when the
    iteration is resumed; in the Rust text this is a machine over block labels.
    The labels are kept. Only [tp_on = 0] is modelled (the decoder, and the
    encoder without tile-parts): then the fields [poc.precno1], [poc.tx0] ..
    [poc.ty1] and [pi.dx], [pi.dy] are functions of the parameters and of the
    current component and resolution whenever they are used, and they are
    written as such. *)

From Coq Require Import ZArith List Bool.
From Verif Require Import Ints Mem.
Import ListNotations.
Local Open Scope Z_scope.

(** pi.rs:12-20, 22-30. *)
Record res := mkRes { pdx : Z; pdy : Z; pw : Z; ph : Z }.
Record comp := mkComp { dx : Z; dy : Z; ress : list res }.
Definition numres (c : comp) : Z := Z.of_nat (length (ress c)).

(** pi.rs:32-59: the parameters. *)
Record cfg := mkCfg {
  comps : list comp; tx0 : Z; ty0 : Z; tx1 : Z; ty1 : Z;
  step_l : Z; step_r : Z; step_c : Z; step_p : Z; include_size : Z;
  lay0 : Z; lay1 : Z; res0 : Z; res1 : Z; comp0 : Z; comp1 : Z; prec0 : Z }.
Definition numcomps (g : cfg) : Z := Z.of_nat (length (comps g)).
Definition comp_at (g : cfg) (i : Z) : comp := nth (Z.to_nat i) (comps g) (mkComp 1 1 []).
Definition res_of (c : comp) (r : Z) : res := nth (Z.to_nat r) (ress c) (mkRes 0 0 0 0).

(** pi.rs:32-59: the changing part; [include] is shared by all iterators of a
    tile. *)
Record st := mkSt { lay : Z; rs : Z; cp : Z; pr : Z; x : Z; y : Z; incl : mem }.

(** Outcome of the code of one label: go on at a label, return 1, return 0. *)
Inductive move (L : Type) := Goto (l : L) (s : st) | Found (s : st) | Stop (s : st).
Arguments Goto {L}. Arguments Found {L}. Arguments Stop {L}.

(** pi.rs:158-178 and the same text in the other four functions. *)
Definition index (g : cfg) (l r c p : Z) : Z :=
  u32 (u32 (u32 (u32 (l * step_l g) + u32 (r * step_r g)) + u32 (c * step_c g)) + u32 (p * step_p g)).
Definition probe {L} (g : cfg) (again : L) (s : st) : move L :=
  let i := index g (lay s) (rs s) (cp s) (pr s) in
  if include_size g <=? i then Stop s
  else if incl s i =? 0 then Found (mkSt (lay s) (rs s) (cp s) (pr s) (x s) (y s) (upd (incl s) i 1))
  else Goto again s.

(** [a.wrapping_add(1)] *)
Definition inc (a : Z) : Z := u32 (a + 1).

(** pi.rs:117-224 [opj_pi_next_lrcp]. Labels: A 5634871135123216486,
    O 2868539653012386629 (outer loop), M 1856101646708284338 (middle loop),
    P 1109700713171191020 (precincts), K 17860125682698302841,
    C 10048703153582371463 (components). *)
Inductive seq_label := SA | SO | SM | SP | SK | SC.
Definition lrcp (g : cfg) (l : seq_label) (s : st) : move seq_label :=
  match l with
  | SA => Goto SP (mkSt (lay s) (rs s) (cp s) (inc (pr s)) (x s) (y s) (incl s))
  | SO => if lay1 g <=? lay s then Stop s
          else Goto SM (mkSt (lay s) (res0 g) (cp s) (pr s) (x s) (y s) (incl s))
  | SM => if rs s <? res1 g then Goto SC (mkSt (lay s) (rs s) (comp0 g) (pr s) (x s) (y s) (incl s))
          else Goto SO (mkSt (inc (lay s)) (rs s) (cp s) (pr s) (x s) (y s) (incl s))
  | SP => let r := res_of (comp_at g (cp s)) (rs s) in
          if pr s <? u32 (pw r * ph r) then probe g SA s else Goto SK s
  | SK => Goto SC (mkSt (lay s) (rs s) (inc (cp s)) (pr s) (x s) (y s) (incl s))
  | SC => if cp s <? comp1 g then
            if numres (comp_at g (cp s)) <=? rs s then Goto SK s
            else Goto SP (mkSt (lay s) (rs s) (cp s) (prec0 g) (x s) (y s) (incl s))
          else Goto SM (mkSt (lay s) (inc (rs s)) (cp s) (pr s) (x s) (y s) (incl s))
  end.

(** pi.rs:229-330 [opj_pi_next_rlcp]; the same labels. *)
Definition rlcp (g : cfg) (l : seq_label) (s : st) : move seq_label :=
  match l with
  | SA => Goto SP (mkSt (lay s) (rs s) (cp s) (inc (pr s)) (x s) (y s) (incl s))
  | SO => if res1 g <=? rs s then Stop s
          else Goto SM (mkSt (lay0 g) (rs s) (cp s) (pr s) (x s) (y s) (incl s))
  | SM => if lay s <? lay1 g then Goto SC (mkSt (lay s) (rs s) (comp0 g) (pr s) (x s) (y s) (incl s))
          else Goto SO (mkSt (lay s) (inc (rs s)) (cp s) (pr s) (x s) (y s) (incl s))
  | SP => let r := res_of (comp_at g (cp s)) (rs s) in
          if pr s <? u32 (pw r * ph r) then probe g SA s else Goto SK s
  | SK => Goto SC (mkSt (lay s) (rs s) (inc (cp s)) (pr s) (x s) (y s) (incl s))
  | SC => if cp s <? comp1 g then
            if numres (comp_at g (cp s)) <=? rs s then Goto SK s
            else Goto SP (mkSt (lay s) (rs s) (cp s) (prec0 g) (x s) (y s) (incl s))
          else Goto SM (mkSt (inc (lay s)) (rs s) (cp s) (pr s) (x s) (y s) (incl s))
  end.

(** ** Position-based progressions *)

(** pi.rs:370-385, 409-424: the step of one resolution, if it fits a u32, and
    the running minimum (0 at first). [e] is the precinct exponent, [n] the
    number of resolutions. *)
Definition step_min (d n : Z) (m e r : Z) : Z :=
  let k := u32 (u32 (u32 (e + n) - 1) - r) in
  if (k <? 32) && (d <=? (2 ^ 32 - 1) / 2 ^ k) then
    let v := u32 (d * 2 ^ k) in if m =? 0 then v else Z.min m v
  else m.
Fixpoint res_min (d n : Z) (sel : res -> Z) (m r : Z) (l : list res) : Z :=
  match l with [] => m | q :: l => res_min d n sel (step_min d n m (sel q) r) (r + 1) l end.
(** pi.rs:365-446 (all components; also 636-718) and 932-1010 (one component). *)
Definition comp_dx (m : Z) (c : comp) : Z := res_min (dx c) (numres c) pdx m 0 (ress c).
Definition comp_dy (m : Z) (c : comp) : Z := res_min (dy c) (numres c) pdy m 0 (ress c).
Definition all_dx (g : cfg) : Z := fold_left comp_dx (comps g) 0.
Definition all_dy (g : cfg) : Z := fold_left comp_dy (comps g) 0.

(** pi.rs:508-510, 570-572: to the next multiple of [d]. *)
Definition advance (d a : Z) : Z := u32 (a + u32 (d - a mod d)).

(** math.rs:78-82 *)
Definition ceildiv64 (a b : Z) : Z := u32 (u64 (u64 (a + b) - 1) / b).
(** [a << k] on u64 and u32; [>>] likewise masks its amount. *)
Definition shl64 (a k : Z) : Z := u64 (Z.shiftl a (k mod 64)).
Definition shr64 (a k : Z) : Z := Z.shiftr a (k mod 64).
Definition shl32 (a k : Z) : Z := u32 (Z.shiftl a (k mod 32)).
Definition shr32 (a k : Z) : Z := Z.shiftr a (k mod 32).

(** pi.rs:545-551 (and 840-846, 1119-1125): does position [p] start a row or
    column of precincts? [d] is the subsampling, [rp] the exponent of the
    precinct at this level, [t0] the tile origin, [tr0] that of the
    resolution. *)
Definition starts (p t0 d lev rp tr0 : Z) : bool :=
  (p mod shl64 d rp =? 0) || ((p =? t0) && negb (shl64 tr0 lev mod shl64 1 rp =? 0)).

(** pi.rs:572-577: the number of the row or column. *)
Definition prc (p d lev e tr0 : Z) : Z :=
  u32 (shr32 (ceildiv64 p (shl64 d lev)) e - shr32 tr0 e).

(** pi.rs:532-586 (and 812-877, 1091-1156, after the overflow checks): the
    precinct of resolution [r] of component [c] starting at the current
    position. *)
Definition precinct_here (g : cfg) (c : comp) (r : Z) (px py : Z) : option Z :=
  let q := res_of c r in
  let lev := numres c - 1 - r in
  let trx0 := ceildiv64 (tx0 g) (shl64 (dx c) lev) in
  let try0 := ceildiv64 (ty0 g) (shl64 (dy c) lev) in
  let trx1 := ceildiv64 (tx1 g) (shl64 (dx c) lev) in
  let try1 := ceildiv64 (ty1 g) (shl64 (dy c) lev) in
  let rpx := u32 (pdx q + lev) in
  let rpy := u32 (pdy q + lev) in
  if negb (starts py (ty0 g) (dy c) lev rpy try0) then None
  else if negb (starts px (tx0 g) (dx c) lev rpx trx0) then None
  else if (pw q =? 0) || (ph q =? 0) then None
  else if (trx0 =? trx1) || (try0 =? try1) then None
  else Some (u32 (prc px (dx c) lev (pdx q) trx0 + u32 (prc py (dy c) lev (pdy q) try0 * pw q))).

(** pi.rs:519-526 and 537-540: overflow checks of RPCL, on 64 bits. *)
Definition check64 (d k : Z) : bool := shr64 (shl64 d k) k =? d.
Definition fits64 (c : comp) (r : Z) : bool :=
  let q := res_of c r in let lev := numres c - 1 - r in
  check64 (dx c) lev && check64 (dy c) lev &&
  (check64 (dx c) (u32 (pdx q + lev)) && check64 (dy c) (u32 (pdy q + lev))).

(** pi.rs:806-811 and 832-837 (PCRL), 1085-1090 and 1111-1116 (CPRL): the same
    checks, but the shifts to the left are done on 32 bits. *)
Definition check32a (d k : Z) : bool := shr32 (shl32 d k) k =? d.
Definition check32b (d k : Z) : bool := u32 (shr64 (shl32 d k) k) =? d.
Definition fits32 (c : comp) (r : Z) : bool :=
  let q := res_of c r in let lev := numres c - 1 - r in
  check32a (dx c) lev && check32a (dy c) lev &&
  (check32b (dx c) (u32 (pdx q + lev)) && check32b (dy c) (u32 (pdy q + lev))).

(** pi.rs:335-600 [opj_pi_next_rpcl]. Labels: A 129780949503461575 (next layer),
    O 11385396242402735691 (resolutions), Y 6450636197030046351,
    X 3123434771885419771, B 2606304779496145856 (layers),
    K 10891380440665537214 (next component), T the code after the match. *)
Inductive pos_label := PA | PO | PY | PX | PC | PB | PK | PT.
Definition rpcl (g : cfg) (l : pos_label) (s : st) : move pos_label :=
  match l with
  | PA => Goto PB (mkSt (inc (lay s)) (rs s) (cp s) (pr s) (x s) (y s) (incl s))
  | PO => if res1 g <=? rs s then Stop s
          else Goto PY (mkSt (lay s) (rs s) (cp s) (pr s) (x s) (ty0 g) (incl s))
  | PY => if y s <? ty1 g then Goto PX (mkSt (lay s) (rs s) (cp s) (pr s) (tx0 g) (y s) (incl s))
          else Goto PO (mkSt (lay s) (inc (rs s)) (cp s) (pr s) (x s) (y s) (incl s))
  | PX => if x s <? tx1 g then Goto PT (mkSt (lay s) (rs s) (comp0 g) (pr s) (x s) (y s) (incl s))
          else Goto PY (mkSt (lay s) (rs s) (cp s) (pr s) (x s) (advance (all_dy g) (y s)) (incl s))
  | PB => if lay s <? lay1 g then probe g PA s else Goto PK s
  | PK => Goto PT (mkSt (lay s) (rs s) (inc (cp s)) (pr s) (x s) (y s) (incl s))
  | PT => if cp s <? comp1 g then
            let c := comp_at g (cp s) in
            if numres c <=? rs s then Goto PK s
            else if negb (fits64 c (rs s)) then Goto PK s
            else match precinct_here g c (rs s) (x s) (y s) with
                 | None => Goto PK s
                 | Some k => Goto PB (mkSt (lay0 g) (rs s) (cp s) k (x s) (y s) (incl s))
                 end
          else Goto PX (mkSt (lay s) (rs s) (cp s) (pr s) (advance (all_dx g) (x s)) (y s) (incl s))
  | PC => Stop s (* not a label of this function *)
  end.

(** pi.rs:606-887 [opj_pi_next_pcrl]. Labels: A 10853015579903106591,
    Y 7245201122033322888, X 8845338526596852646, C 980989089337379490
    (components), B 6281126495347172768, K 15512526488502093901 (next
    resolution), T the code after the match. *)
Definition pcrl (g : cfg) (l : pos_label) (s : st) : move pos_label :=
  match l with
  | PA => Goto PB (mkSt (inc (lay s)) (rs s) (cp s) (pr s) (x s) (y s) (incl s))
  | PY => if ty1 g <=? y s then Stop s
          else Goto PX (mkSt (lay s) (rs s) (cp s) (pr s) (tx0 g) (y s) (incl s))
  | PX => if x s <? tx1 g then Goto PC (mkSt (lay s) (rs s) (comp0 g) (pr s) (x s) (y s) (incl s))
          else Goto PY (mkSt (lay s) (rs s) (cp s) (pr s) (x s) (advance (all_dy g) (y s)) (incl s))
  | PC => if cp s <? comp1 g then Goto PT (mkSt (lay s) (res0 g) (cp s) (pr s) (x s) (y s) (incl s))
          else Goto PX (mkSt (lay s) (rs s) (cp s) (pr s) (advance (all_dx g) (x s)) (y s) (incl s))
  | PB => if lay s <? lay1 g then probe g PA s else Goto PK s
  | PK => Goto PT (mkSt (lay s) (inc (rs s)) (cp s) (pr s) (x s) (y s) (incl s))
  | PT => let c := comp_at g (cp s) in
          if rs s <? Z.min (res1 g) (numres c) then
            if negb (fits32 c (rs s)) then Goto PK s
            else match precinct_here g c (rs s) (x s) (y s) with
                 | None => Goto PK s
                 | Some k => Goto PB (mkSt (lay0 g) (rs s) (cp s) k (x s) (y s) (incl s))
                 end
          else Goto PC (mkSt (lay s) (rs s) (inc (cp s)) (pr s) (x s) (y s) (incl s))
  | PO => Stop s (* not a label of this function *)
  end.

(** pi.rs:892-1167 [opj_pi_next_cprl]. Labels: A 13707613154239713890,
    O 3640593987805443782 (components), Y 18153031941552419006,
    X 10692455896603418738, B 15594839951440953787, K 3123434771885419771 (next
    resolution), T the code after the match. *)
Definition cprl (g : cfg) (l : pos_label) (s : st) : move pos_label :=
  match l with
  | PA => Goto PB (mkSt (inc (lay s)) (rs s) (cp s) (pr s) (x s) (y s) (incl s))
  | PO => if comp1 g <=? cp s then Stop s
          else let c := comp_at g (cp s) in
          if (comp_dx 0 c =? 0) || (comp_dy 0 c =? 0) then Stop s
          else Goto PY (mkSt (lay s) (rs s) (cp s) (pr s) (x s) (ty0 g) (incl s))
  | PY => if y s <? ty1 g then Goto PX (mkSt (lay s) (rs s) (cp s) (pr s) (tx0 g) (y s) (incl s))
          else Goto PO (mkSt (lay s) (rs s) (inc (cp s)) (pr s) (x s) (y s) (incl s))
  | PX => if x s <? tx1 g then Goto PT (mkSt (lay s) (res0 g) (cp s) (pr s) (x s) (y s) (incl s))
          else Goto PY (mkSt (lay s) (rs s) (cp s) (pr s) (x s) (advance (comp_dy 0 (comp_at g (cp s))) (y s)) (incl s))
  | PB => if lay s <? lay1 g then probe g PA s else Goto PK s
  | PK => Goto PT (mkSt (lay s) (inc (rs s)) (cp s) (pr s) (x s) (y s) (incl s))
  | PT => let c := comp_at g (cp s) in
          if rs s <? Z.min (res1 g) (numres c) then
            if negb (fits32 c (rs s)) then Goto PK s
            else match precinct_here g c (rs s) (x s) (y s) with
                 | None => Goto PK s
                 | Some k => Goto PB (mkSt (lay0 g) (rs s) (cp s) k (x s) (y s) (incl s))
                 end
          else Goto PX (mkSt (lay s) (rs s) (cp s) (pr s) (advance (comp_dx 0 c) (x s)) (y s) (incl s))
  | PC => Stop s (* not a label of this function *)
  end.

(** ** Calls *)

(** The [loop { match current_block .. }] of all five functions; [None] if it
    does not end within [fuel] rounds. *)
Fixpoint go {L} (step : L -> st -> move L) (fuel : nat) (l : L) (s : st) : option (bool * st) :=
  match fuel with
  | O => None
  | S fuel => match step l s with
              | Goto l s => go step fuel l s
              | Found s => Some (true, s)
              | Stop s => Some (false, s)
              end
  end.

(** pi.rs:122-126 and the same check in the other functions. *)
Definition bad_comps (g : cfg) : bool := (numcomps g <=? comp0 g) || (u32 (numcomps g + 1) <=? comp1 g).

Inductive order := LRCP | RLCP | RPCL | PCRL | CPRL.

(** pi.rs:2830-2841 [opj_pi_next]; [first] is the field of that name. *)
Definition next (g : cfg) (o : order) (fuel : nat) (first : bool) (s : st) : option (bool * st) :=
  if bad_comps g then Some (false, s)
  else
    let stuck := first && ((all_dx g =? 0) || (all_dy g =? 0)) in
    match o with
    | LRCP => if first then go (lrcp g) fuel SO (mkSt (lay0 g) (rs s) (cp s) (pr s) (x s) (y s) (incl s))
              else go (lrcp g) fuel SA s
    | RLCP => if first then go (rlcp g) fuel SO (mkSt (lay s) (res0 g) (cp s) (pr s) (x s) (y s) (incl s))
              else go (rlcp g) fuel SA s
    | RPCL => if stuck then Some (false, s)
              else if first then go (rpcl g) fuel PO (mkSt (lay s) (res0 g) (cp s) (pr s) (x s) (y s) (incl s))
              else go (rpcl g) fuel PA s
    | PCRL => if stuck then Some (false, s)
              else if first then go (pcrl g) fuel PY (mkSt (lay s) (rs s) (cp s) (pr s) (x s) (ty0 g) (incl s))
              else go (pcrl g) fuel PA s
    | CPRL => if first then go (cprl g) fuel PO (mkSt (lay s) (rs s) (comp0 g) (pr s) (x s) (y s) (incl s))
              else go (cprl g) fuel PA s
    end.

(** A packet: layer, resolution, component, precinct. *)
Definition packet : Type := Z * Z * Z * Z.
Definition here (s : st) : packet := (lay s, rs s, cp s, pr s).

(** t2.rs:369 [while opj_pi_next(l_current_pi) != 0]: the packets delivered and
    the final [include]; [None] if there is no end within [n] calls of [fuel]
    rounds each. *)
Fixpoint drain (g : cfg) (o : order) (n fuel : nat) (first : bool) (s : st) : option (list packet * mem) :=
  match n with
  | O => None
  | S n => match next g o fuel first s with
           | None => None
           | Some (false, s) => Some ([], incl s)
           | Some (true, s) => match drain g o n fuel false s with
                               | Some (l, m) => Some (here s :: l, m)
                               | None => None
                               end
           end
  end.

(** ** Setting up *)

(** math.rs:58-65, pi.rs:61-67, math.rs:37-40. *)
Definition ceildiv (a b : Z) : Z := u32 (u64 (u64 (a + b) - 1) / b).
Definition ceildivpow2 (a b : Z) : Z := u32 (shr64 (u64 (u64 (a + shl64 1 b) - 1)) b).

(** pi.rs:1398-1401, 1462-1484: the number of precincts along one axis, for
    the tile extent [t0, t1), subsampling [d], level [l] and exponent [e]. *)
Definition count (t0 t1 d l e : Z) : Z :=
  let r0 := ceildivpow2 (ceildiv t0 d) l in
  let r1 := ceildivpow2 (ceildiv t1 d) l in
  let p0 := shl32 (shr32 r0 e) e in
  let p1 := shl32 (ceildivpow2 r1 e) e in
  if r0 =? r1 then 0 else shr32 (u32 (p1 - p0)) e.

(** The coding parameters of a component: subsampling and precinct exponents
    of its resolutions, lowest first. *)
Record params := mkParams { sx : Z; sy : Z; exps : list (Z * Z) }.

(** pi.rs:1408-1501 and 2035-2057: the tables of one component. *)
Fixpoint make_ress (tx0 ty0 tx1 ty1 dx dy : Z) (l : list (Z * Z)) : list res :=
  match l with
  | [] => []
  | (ex, ey) :: r =>
      let lev := Z.of_nat (length r) in
      mkRes ex ey (count tx0 tx1 dx lev ex) (count ty0 ty1 dy lev ey) :: make_ress tx0 ty0 tx1 ty1 dx dy r
  end.
Definition make_comp (tx0 ty0 tx1 ty1 : Z) (p : params) : comp :=
  mkComp (sx p) (sy p) (make_ress tx0 ty0 tx1 ty1 (sx p) (sy p) (exps p)).

(** pi.rs:1403-1406, 1409-1411, 1494-1498: the maxima. *)
Definition max_prec (cs : list comp) : Z :=
  fold_left (fun m c => fold_left (fun m q => Z.max m (u32 (pw q * ph q))) (ress c) m) cs 0.
Definition max_res (cs : list comp) : Z := fold_left (fun m c => Z.max m (numres c)) cs 0.

(** A progression: order and volume (openjpeg.rs [opj_poc]); layers and
    precincts start at 0. *)
Record volume := mkVol { v_order : order; v_res0 : Z; v_res1 : Z; v_comp0 : Z; v_comp1 : Z; v_lay1 : Z }.

(** pi.rs:1913-2139 [opj_pi_create_decode]: the iterator of one progression.
    Allocation succeeds; [None] is the refusal of too large an [include]. *)
Definition make_cfg (tx0 ty0 tx1 ty1 layers : Z) (ps : list params) (v : volume) : option cfg :=
  let cs := map (make_comp tx0 ty0 tx1 ty1) ps in
  let sp := 1 in
  let sc := u32 (max_prec cs * sp) in
  let sr := u32 (Z.of_nat (length cs) * sc) in
  let sl := u32 (max_res cs * sr) in
  if sl <=? (2 ^ 32 - 1) / u32 (layers + 1) then
    Some (mkCfg cs tx0 ty0 tx1 ty1 sl sr sc sp (u32 (u32 (layers + 1) * sl))
            0 (v_lay1 v) (v_res0 v) (v_res1 v) (v_comp0 v) (v_comp1 v) 0)
  else None.

(** pi.rs:1780-1812 [opj_pi_update_decode_not_poc]: no progression changes. *)
Definition whole (tx0 ty0 tx1 ty1 layers : Z) (ps : list params) (o : order) : volume :=
  mkVol o 0 (max_res (map (make_comp tx0 ty0 tx1 ty1) ps)) 0 (Z.of_nat (length ps)) layers.

(** pi.rs:1741-1776 [opj_pi_update_decode_poc]: one progression change. *)
Definition poc_volume (layers : Z) (v : volume) : volume :=
  mkVol (v_order v) (v_res0 v) (v_res1 v) (v_comp0 v) (v_comp1 v) (Z.min (v_lay1 v) layers).

(** t2.rs:349-489: the iterators are drained in turn. The fields of a fresh
    iterator are 0. *)
Fixpoint drain_all (n fuel : nat) (gs : list (cfg * order)) (m : mem) : option (list packet) :=
  match gs with
  | [] => Some []
  | (g, o) :: gs =>
      match drain g o n fuel true (mkSt 0 0 0 0 0 0 m) with
      | None => None
      | Some (l, m) => option_map (app l) (drain_all n fuel gs m)
      end
  end.

(** pi.rs:2094-2133: all iterators of the tile; the progressions of the POC
    marker ([numpocs + 1] of them), or a single one. *)
Fixpoint iterators (tx0 ty0 tx1 ty1 layers : Z) (ps : list params) (vs : list volume) : option (list (cfg * order)) :=
  match vs with
  | [] => Some []
  | v :: vs => match make_cfg tx0 ty0 tx1 ty1 layers ps v, iterators tx0 ty0 tx1 ty1 layers ps vs with
               | Some g, Some gs => Some ((g, v_order v) :: gs)
               | _, _ => None
               end
  end.

(** pi.rs:2182-2419 [opj_pi_initialise_encode] and 2421-2465
    [opj_pi_create_encode] without division into tile-parts: the same iterator,
    except for the first layer [lay] and the size of [include] (2283-2302), which is
    computed without a check. *)
Definition enc_cfg (tx0 ty0 tx1 ty1 layers : Z) (ps : list params) (lay : Z) (v : volume) : cfg :=
  let cs := map (make_comp tx0 ty0 tx1 ty1) ps in
  let sp := 1 in
  let sc := u32 (max_prec cs * sp) in
  let sr := u32 (Z.of_nat (length cs) * sc) in
  let sl := u32 (max_res cs * sr) in
  mkCfg cs tx0 ty0 tx1 ty1 sl sr sc sp (u32 (layers * sl))
    lay (v_lay1 v) (v_res0 v) (v_res1 v) (v_comp0 v) (v_comp1 v) 0.

(** pi.rs:1628-1667: the first layer of a progression, given the last layer of
    the one before ([None] for the first progression). *)
Definition lay_start (prev : option Z) (v : volume) : Z :=
  match prev with
  | None => 0
  | Some e => if v_lay1 v >? e then v_lay1 v else 0
  end.

(** pi.rs:1596-1668 [opj_pi_update_encode_poc_and_final]: the progressions
    written for a tile. Without progression changes (1686-1737) there is one, over
    the volume [whole]. *)
Fixpoint enc_iterators (tx0 ty0 tx1 ty1 layers : Z) (ps : list params) (prev : option Z) (vs : list volume) : list (cfg * order) :=
  match vs with
  | [] => []
  | v :: vs => (enc_cfg tx0 ty0 tx1 ty1 layers ps (lay_start prev v) v, v_order v)
               :: enc_iterators tx0 ty0 tx1 ty1 layers ps (Some (v_lay1 v)) vs
  end.

(** j2k.rs:12671, 12829-12870 and t2.rs:142-310 (final pass): one call of
    [opj_t2_encode_packets] for each progression, each with a newly cleared
    [include]. *)
Fixpoint encode_all (n fuel : nat) (gs : list (cfg * order)) : option (list packet) :=
  match gs with
  | [] => Some []
  | (g, o) :: gs =>
      match drain g o n fuel true (mkSt 0 0 0 0 0 0 (fun _ => 0)) with
      | None => None
      | Some (l, _) => option_map (app l) (encode_all n fuel gs)
      end
  end.
