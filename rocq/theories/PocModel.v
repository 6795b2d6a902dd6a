(** Model of the check that progression order changes cover every packet
    (j2k.rs:743-838 [opj_j2k_check_poc_val]).

    Numbers are 32 bits wide ([u32]); the array is a function with its size; [None]: an
    index outside the array, or the failed [assert!].  The allocation succeeds. *)

From Coq Require Import ZArith List Bool.
From Verif Require Import Ints.
Import ListNotations.
Local Open Scope Z_scope.

(** [opj_poc_t], as far as it is used here. *)
Record poc := Poc { o_tile : Z; o_res0 : Z; o_res1 : Z; o_comp0 : Z; o_comp1 : Z; o_lay1 : Z }.

Definition cells : Type := Z -> bool.
Definition mark (size i : Z) (a : cells) : option cells :=
  if (0 <=? i) && (i <? size) then Some (fun j => if j =? i then true else a j) else None.

(** j2k.rs:793-799: [k] layers. *)
Fixpoint mark_layers (size step_l : Z) (k : nat) (i : Z) (a : cells) : option cells :=
  match k with
  | O => Some a
  | S k => match mark size i a with None => None | Some a => mark_layers size step_l k (u32 (i + step_l)) a end
  end.
(** j2k.rs:786-803: [k] components of [lays] layers. *)
Fixpoint mark_comps (size step_l : Z) (lays k : nat) (i : Z) (a : cells) : option cells :=
  match k with
  | O => Some a
  | S k => match mark_layers size step_l lays i a with None => None | Some a => mark_comps size step_l lays k (u32 (i + 1)) a end
  end.
(** j2k.rs:782-806: [k] resolutions; [c0] is the first component. *)
Fixpoint mark_ress (size step_l step_r c0 : Z) (lays comps k : nat) (i : Z) (a : cells) : option cells :=
  match k with
  | O => Some a
  | S k =>
      match mark_comps size step_l lays comps (u32 (i + c0)) a with
      | None => None
      | Some a => mark_ress size step_l step_r c0 lays comps k (u32 (i + step_r)) a
      end
  end.
(** How often [while x < hi] runs from [lo]. *)
Definition times (lo hi : Z) : nat := Z.to_nat (hi - lo).
(** j2k.rs:775-809 *)
Fixpoint mark_pocs (size : Z) (tileno nres ncomps nlays : Z) (ps : list poc) (a : cells) : option cells :=
  match ps with
  | [] => Some a
  | p :: ps =>
      let step_r := ncomps in
      let step_l := u32 (nres * step_r) in
      match (if u32 (tileno + 1) =? o_tile p then
               mark_ress size step_l step_r (o_comp0 p) (times 0 (Z.min (o_lay1 p) nlays)) (times (o_comp0 p) (Z.min (o_comp1 p) ncomps))
                 (times (o_res0 p) (Z.min (o_res1 p) nres)) (u32 (step_r * o_res0 p)) a
             else Some a) with
      | None => None
      | Some a => mark_pocs size tileno nres ncomps nlays ps a
      end
  end.

(** j2k.rs:810-827: the loops over components, resolutions and layers; with the index,
    whether a cell was not marked. *)
Fixpoint look_comps (size : Z) (k : nat) (i : Z) (a : cells) (loss : bool) : option (Z * bool) :=
  match k with
  | O => Some (i, loss)
  | S k => if (0 <=? i) && (i <? size) then look_comps size k (u32 (i + 1)) a (loss || negb (a i)) else None
  end.
Fixpoint look_ress (size : Z) (comps k : nat) (i : Z) (a : cells) (loss : bool) : option (Z * bool) :=
  match k with
  | O => Some (i, loss)
  | S k => match look_comps size comps i a loss with None => None | Some (i, loss) => look_ress size comps k i a loss end
  end.
Fixpoint look_lays (size : Z) (comps ress k : nat) (i : Z) (a : cells) (loss : bool) : option (Z * bool) :=
  match k with
  | O => Some (i, loss)
  | S k => match look_ress size comps ress i a loss with None => None | Some (i, loss) => look_lays size comps ress k i a loss end
  end.

(** j2k.rs:743-838 *)
Definition check_poc_val (ps : list poc) (tileno nres ncomps nlays : Z) : option bool :=
  match ps with
  | [] => None
  | _ =>
      let size := u32 (nres * ncomps) * nlays in
      match mark_pocs size tileno nres ncomps nlays ps (fun _ => false) with
      | None => None
      | Some a =>
          match look_lays size (Z.to_nat ncomps) (Z.to_nat nres) (Z.to_nat nlays) 0 a false with
          | None => None
          | Some (_, loss) => Some (negb loss)
          end
      end
  end.

(** ** The progression order changes of a tile

    j2k.rs:7357-7383 in [opj_j2k_setup_encoder]: [all] are the entries of the parameters,
    of which [ps] are left; [done] are those of the tile so far.  The entry copied is that
    with the number [numpocs_tile], not the one at hand.  Outer [None]: index outside the
    array; inner [None]: refused.  The progression order itself is left out. *)
Fixpoint tile_pocs (all : list poc) (tileno ncomps : Z) (ps : list poc) (done : list poc) : option (option (list poc)) :=
  match ps with
  | [] => Some (Some done)
  | p :: ps =>
      if u32 (tileno + 1) =? o_tile p then
        match nth_error all (length done) with
        | None => None
        | Some q =>
            if ncomps <=? o_comp0 q then Some None else
            tile_pocs all tileno ncomps ps (done ++ [Poc (o_tile q) (o_res0 q) (o_res1 q) (o_comp0 q) (Z.min (o_comp1 q) ncomps) (o_lay1 q)])
        end
      else tile_pocs all tileno ncomps ps done
  end.
(** j2k.rs:7357-7400: the entries of the tile; the answer of the check is not used. *)
Definition setup_pocs (ps : list poc) (tileno nres ncomps nlays : Z) : option (option (list poc)) :=
  match tile_pocs ps tileno ncomps ps [] with
  | None => None
  | Some None => Some None
  | Some (Some qs) =>
      match qs with
      | [] => Some (Some [])
      | _ => match check_poc_val ps tileno nres ncomps nlays with None => None | Some _ => Some (Some qs) end
      end
  end.
