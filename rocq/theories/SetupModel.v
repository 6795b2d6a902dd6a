(** Model of [opj_j2k_setup_encoder] (j2k.rs:6835-7600), of the step sizes it
    computes (dwt.rs [opj_dwt_calc_explicit_stepsizes], [opj_dwt_encode_stepsize])
    and of [opj_j2k_encoding_validation] (j2k.rs:8157-8206): from the parameters
    of the user and the image to the parameters that [HdrModel.write_header]
    writes.

    Not modelled: profiles (rsiz is 0), fixed allocation, progression order changes
    (PocModel), custom component transforms (MctHdrModel), rates (they only decide
    warnings and the passes taken, RateModel), failing allocations. The step sizes
    of the irreversible transform are quotients of floating point numbers; the
    integers made of them are a parameter. Plain arithmetic wraps as in the release
    profile. *)

From Coq Require Import ZArith List Bool.
From Verif Require Import Ints I32 Mem MathModel HdrModel.
Import ListNotations.
Local Open Scope Z_scope.

(** openjpeg.rs [opj_cparameters]: the fields used here; all are i32 but [q_mct],
    an i8. [q_prcw] and [q_prch] have 33 entries. *)
Record params := mkParams {
  q_numres : Z; q_cblkw : Z; q_cblkh : Z; q_layers : Z; q_csty : Z; q_prg : Z; q_mct : Z; q_mode : Z;
  q_irreversible : bool; q_roi_comp : Z; q_roi_shift : Z; q_res_spec : Z; q_prcw : mem; q_prch : mem;
  q_tile_on : bool; q_tdx : Z; q_tdy : Z; q_tx0 : Z; q_ty0 : Z; q_comment : list Z }.
(** [opj_image]: area and components. *)
Record image := mkImage { i_x0 : Z; i_y0 : Z; i_x1 : Z; i_y1 : Z; i_comps : list comp }.

Inductive outcome (A : Type) := Ok (a : A) | Refused | Panicked.
Arguments Ok {A}. Arguments Refused {A}. Arguments Panicked {A}.

(** j2k.rs:6849-6904 *)
Definition check_blocks (p : params) : bool :=
  negb ((q_numres p <=? 0) || (33 <? q_numres p)) &&
  negb ((q_cblkw p <? 4) || (1024 <? q_cblkw p)) &&
  negb ((q_cblkh p <? 4) || (1024 <? q_cblkh p)) &&
  negb (4096 <? i32 (q_cblkw p * q_cblkh p)) &&
  (q_cblkw p =? i32 (Z.shiftl 1 (floorlog2 (q_cblkw p) mod 32))) &&
  (q_cblkh p =? i32 (Z.shiftl 1 (floorlog2 (q_cblkh p) mod 32))).

(** j2k.rs:6975-6979: without layers there is one. j2k.rs:6980-7143: whichever way
    rates are given, the arrays of 100 rates or ratios are indexed by the last
    layer; a negative number is a huge one. [None] is a panic. *)
Definition check_layers (p : params) : option Z :=
  let n := if q_layers p =? 0 then 1 else q_layers p in
  if (1 <=? n) && (n <=? 100) then Some n else None.

(** j2k.rs:7241-7244, 7273-7298: the tile size. *)
Definition tiles (im : image) (p : params) : outcome (Z * Z) :=
  let tx := u32 (q_tx0 p) in
  let ty := u32 (q_ty0 p) in
  if q_tile_on p then
    if u32 (q_tdx p) =? 0 then Refused
    else if u32 (q_tdy p) =? 0 then Refused
    else
      match uint_ceildiv (u32 (i_x1 im - tx)) (u32 (q_tdx p)), uint_ceildiv (u32 (i_y1 im - ty)) (u32 (q_tdy p)) with
      | Some tw, Some th =>
          if th =? 0 then Panicked
          else if 65535 / th <? tw then Refused else Ok (u32 (q_tdx p), u32 (q_tdy p))
      | _, _ => Panicked
      end
  else Ok (u32 (i_x1 im - tx), u32 (i_y1 im - ty)).

(** j2k.rs:7357, 7484-7500: the component transform is switched off if the first
    three components differ in their sampling. *)
Definition mct_of (im : image) (p : params) : Z :=
  let m := u32 (q_mct p) in
  match i_comps im with
  | a :: b :: c :: _ =>
      if (m =? 1) && (negb (c_dx a =? c_dx b) || negb (c_dx a =? c_dx c) || negb (c_dy a =? c_dy b) || negb (c_dy a =? c_dy c))
      then 0 else m
  | _ => m
  end.

(** j2k.rs:7540-7583: the exponent of the precincts of resolution [r], from the
    sizes given from the highest resolution downwards; the last one given is halved
    on and on. *)
Definition prc_exp (size : Z) : Z := if size <? 1 then 1 else u32 (floorlog2 size).
Definition prc_of (p : params) (sizes : mem) (r : Z) : Z :=
  let k := q_numres p - 1 - r in
  if k <? q_res_spec p then prc_exp (sizes k)
  else prc_exp (Z.shiftr (sizes (q_res_spec p - 1)) ((k - (q_res_spec p - 1)) mod 32)).
(** j2k.rs:7584-7591: without sizes, the largest. Entries above the resolutions
    stay 0 ([opj_calloc]). *)
Definition prcs (p : params) (sizes : mem) : mem := fun r =>
  if (0 <=? r) && (r <? q_numres p)
  then if Z.land (q_csty p) 1 =? 0 then 15 else prc_of p sizes r
  else 0.

(** dwt.rs [opj_dwt_encode_stepsize] *)
Definition encode_stepsize (stepsize numbps : Z) : Z * Z :=
  let p := floorlog2 stepsize - 13 in
  let n := 11 - floorlog2 stepsize in
  (i32 (numbps - p), Z.land (if n <? 0 then Z.shiftr stepsize (- n) else i32 (Z.shiftl stepsize n)) 2047).

(** dwt.rs [opj_dwt_calc_explicit_stepsizes]: band [b]. [fs level orient] is the
    integer below 8192 over the norm of the band in the irreversible transform. *)
Definition orient_of (b : Z) : Z := if b =? 0 then 0 else u32 ((b - 1) mod 3 + 1).
Definition level_of (numres b : Z) : Z := u32 (numres - 1 - (if b =? 0 then 0 else (b - 1) / 3 + 1)).
Definition stepsize (fs : Z -> Z -> Z) (irr : bool) (numres prec b : Z) : Z * Z :=
  let o := orient_of b in
  let gain := if irr then 0 else if o =? 0 then 0 else if (o =? 1) || (o =? 2) then 1 else 2 in
  let s := if irr then fs (level_of numres b) o else 8192 in
  encode_stepsize s (i32 (prec + gain)).
Definition in_bands (numres b : Z) : bool := (0 <=? b) && (b <? u32 (u32 (3 * numres) - 2)).

(** j2k.rs:7501-7596: the parameters of component [i]. *)
Definition tccp_of (fs : Z -> Z -> Z) (p : params) (i : nat) (c : comp) : tccp :=
  mkT (Z.land (q_csty p) 1) (q_numres p) (floorlog2 (q_cblkw p)) (floorlog2 (q_cblkh p)) (u32 (q_mode p))
    (if q_irreversible p then 0 else 1) (prcs p (q_prcw p)) (prcs p (q_prch p))
    (if q_irreversible p then 2 else 0) 2
    (fun b => if in_bands (q_numres p) b then fst (stepsize fs (q_irreversible p) (q_numres p) (c_prec c) b) else 0)
    (fun b => if in_bands (q_numres p) b then snd (stepsize fs (q_irreversible p) (q_numres p) (c_prec c) b) else 0)
    (if Z.of_nat i =? q_roi_comp p then q_roi_shift p else 0)
    (if c_sgnd c =? 0 then i32 (Z.shiftl 1 (u32 (c_prec c - 1) mod 32)) else 0).
Fixpoint tccps (fs : Z -> Z -> Z) (p : params) (i : nat) (cs : list comp) : list tccp :=
  match cs with [] => [] | c :: cs => tccp_of fs p i c :: tccps fs p (S i) cs end.

(** j2k.rs:6835-7600. All tiles get the same parameters. j2k.rs:7543-7546,
    7562-7563: sizes of precincts asked for but none given is a panic. *)
Definition setup (fs : Z -> Z -> Z) (im : image) (p : params) : outcome enc :=
  if negb (check_blocks p) then Refused
  else match check_layers p with
  | None => Panicked
  | Some layers =>
      match tiles im p with
      | Refused => Refused
      | Panicked => Panicked
      | Ok (dx, dy) =>
          if negb (Z.land (q_csty p) 1 =? 0) && (q_res_spec p <=? 0) then Panicked
          else Ok (mkEnc (mkSiz 0 (i_x1 im) (i_y1 im) (i_x0 im) (i_y0 im) dx dy (u32 (q_tx0 p)) (u32 (q_ty0 p)) (i_comps im))
                     (mkTcp (u32 (q_csty p)) (q_prg p) layers (mct_of im p) (tccps fs p 0 (i_comps im)) [])
                     None (Some (q_comment p)))
      end
  end.

(** j2k.rs:8157-8206, after set-up (the state is NONE). *)
Definition validate (e : enc) : bool :=
  let n := numres (at_ (t_comps (e_tcp e)) 0) in
  negb ((n =? 0) || (32 <? n)) &&
  negb (tdx (e_siz e) <? u32 (i32 (Z.shiftl 1 (u32 (n - 1) mod 32)))) &&
  negb (tdy (e_siz e) <? u32 (i32 (Z.shiftl 1 (u32 (n - 1) mod 32)))).
