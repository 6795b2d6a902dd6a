(** Model of the division of the passes of code-blocks into quality layers (tcd.rs:47-675).

    The float type and its operations are parameters: nothing below depends on them.
    The blocks of the tile are one list, in the order of the loops over components,
    resolutions, bands that are not empty, precincts and blocks.  [None]: an index
    outside an array, or a difference of unsigned numbers below zero. *)

From Coq Require Import ZArith List Bool.
From Verif Require Import Ints I32.
Import ListNotations.
Local Open Scope Z_scope.

Record floats := Floats {
  F : Type; f_zero : F; f_minus_one : F; f_max : F; f_eps : F; f_two : F; f_small : F;
  f_add : F -> F -> F; f_sub : F -> F -> F; f_mul : F -> F -> F; f_div : F -> F -> F; f_abs : F -> F;
  f_lt : F -> F -> bool; f_le : F -> F -> bool; f_eq : F -> F -> bool; f_of : Z -> F }.

Section Rate.
Context (P : floats).
Notation F := (F P).

(** [opj_tcd_layer_t]: passes, bytes, where they begin in the block's data, distortion. *)
Record lay := Lay { y_passes : nat; y_len : Z; y_off : Z; y_dis : F }.
(** [opj_tcd_cblk_enc_t]: [totalpasses]; the array of passes with (rate, distortion);
    the array of layers; [numpassesinlayers]. *)
Record blk := Blk { b_total : nat; b_passes : list (Z * F); b_layers : list lay; b_in : nat }.

(** tcd.rs:105-141: passes from [passno] on ([k] of them); [n] are taken so far. *)
Fixpoint take (ps : list (Z * F)) (thresh : F) (k passno n : nat) : option nat :=
  match k with
  | O => Some n
  | S k =>
      match nth_error ps passno with
      | None => None
      | Some (rate, dis) =>
          match (match n with
                 | O => Some (rate, dis)
                 | S m => match nth_error ps m with None => None | Some (r0, d0) => Some (u32 (rate - r0), f_sub P dis d0) end
                 end) with
          | None => None
          | Some (dr, dd) =>
              let n := if dr =? 0 then if f_eq P dd (f_zero P) then n else S passno
                       else if f_lt P (f_sub P thresh (f_div P dd (f_of P dr))) (f_eps P) then S passno else n in
              take ps thresh k (S passno) n
          end
      end
  end.

(** tcd.rs:150-189 (and 324-348): the layer with passes [a] to [n], in place of [y]. *)
Definition fill (ps : list (Z * F)) (a n : nat) (y : lay) : option lay :=
  match (n - a)%nat with
  | O => Some (Lay 0 (y_len y) (y_off y) (f_zero P))
  | S _ =>
      match nth_error ps (n - 1) with
      | None => None
      | Some (r, d) =>
          match a with
          | O => Some (Lay (n - a) r 0 d)
          | S a1 => match nth_error ps a1 with None => None | Some (r0, d0) => Some (Lay (n - a) (u32 (r - r0)) r0 (f_sub P d d0)) end
          end
      end
  end.
Definition put {A} (i : nat) (x : A) (l : list A) : list A := firstn i l ++ x :: skipn (S i) l.

(** tcd.rs:92-191: one block; with it, whether the layer has as many passes as before,
    and the distortion to add, if any. *)
Definition make_block (layno : nat) (thresh : F) (final : bool) (b : blk) : option (blk * bool * option F) :=
  let a := match layno with O => O | S _ => b_in b end in
  match (if f_lt P thresh (f_zero P) then Some (b_total b) else take (b_passes b) thresh (b_total b - a) a a) with
  | None => None
  | Some n =>
      match nth_error (b_layers b) layno with
      | None => None
      | Some y =>
          if (n <? a)%nat then None else
          match fill (b_passes b) a n y with
          | None => None
          | Some y' =>
              Some (Blk (b_total b) (b_passes b) (put layno y' (b_layers b)) (if final && negb (n - a =? 0)%nat then n else a),
                    (y_passes y =? n - a)%nat, if (n - a =? 0)%nat then None else Some (y_dis y'))
          end
      end
  end.
(** tcd.rs:59-204 [opj_tcd_makelayer] *)
Fixpoint make_blocks (layno : nat) (thresh : F) (final : bool) (bs : list blk) (same : bool) (dis : F) : option (list blk * bool * F) :=
  match bs with
  | [] => Some ([], same, dis)
  | b :: bs =>
      match make_block layno thresh final b with
      | None => None
      | Some (b, s, d) =>
          match make_blocks layno thresh final bs (same && s) (match d with None => dis | Some d => f_add P dis d end) with
          | None => None
          | Some (bs, same, dis) => Some (b :: bs, same, dis)
          end
      end
  end.
Definition makelayer (layno : nat) (thresh : F) (final : bool) (bs : list blk) := make_blocks layno thresh final bs true (f_zero P).

(** tcd.rs:423-460: the least and the greatest slope. *)
Fixpoint slopes (ps : list (Z * F)) (k passno : nat) (mm : F * F) : option (F * F) :=
  match k with
  | O => Some mm
  | S k =>
      match nth_error ps passno with
      | None => None
      | Some (rate, dis) =>
          match (match passno with
                 | O => Some (i32 rate, dis)
                 | S m => match nth_error ps m with None => None | Some (r0, d0) => Some (i32 (u32 (rate - r0)), f_sub P dis d0) end
                 end) with
          | None => None
          | Some (dr, dd) =>
              let '(lo, hi) := mm in
              let s := f_div P dd (f_of P dr) in
              slopes ps k (S passno)
                (if dr =? 0 then mm else (if f_lt P s lo then s else lo, if f_lt P hi s then s else hi))
          end
      end
  end.
Fixpoint all_slopes (bs : list blk) (mm : F * F) : option (F * F) :=
  match bs with
  | [] => Some mm
  | b :: bs => match slopes (b_passes b) (b_total b) 0 mm with None => None | Some mm => all_slopes bs mm end
  end.

(** What a trial run of [opj_t2_encode_packets] up to layer [layno] sees of a block: the
    passes of each layer and, if there are any, their bytes. *)
Definition view (layno : nat) (b : blk) : list (nat * Z * Z) :=
  map (fun y => if (y_passes y =? 0)%nat then (0%nat, 0, 0) else (y_passes y, y_off y, y_len y)) (firstn (S layno) (b_layers b)).

(** Parameters of a layer: whether a threshold is looked for (tcd.rs:529-535), the
    distortion to reach (tcd.rs:515-521), and whether a trial run succeeds in the room
    of the layer (tcd.rs:502-509), given what it sees. *)
Record goal := Goal { g_search : bool; g_target : F; g_fits : list (list (nat * Z * Z)) -> bool }.
(** By distortion (FIXED_DISTORTION_RATIO) or by rate; with the first, whether the
    profile asks for trial runs (tcd.rs:560-563). *)
Inductive strategy := ByRate | ByDistortion (trial : bool).

(** tcd.rs:543-651: at most [k] more steps; [i] is the number of the step. *)
Fixpoint search (st : strategy) (layno : nat) (g : goal) (cum : F) (k i : nat) (bs : list blk) (lo hi thresh stable : F) (ok : bool) : option (list blk * F * F) :=
  match k with
  | O => Some (bs, thresh, stable)
  | S k =>
      let new := f_div P (f_add P lo hi) (f_two P) in
      if f_le P (f_abs P (f_sub P new thresh)) (f_mul P (f_small P) thresh) then Some (bs, thresh, stable) else
      match makelayer layno new false bs with
      | None => None
      | Some (bs, same, dis) =>
          let same := same && negb (i =? 0)%nat in
          let fits := g_fits g (map (view layno) bs) in
          let reached := match layno with O => dis | S _ => f_add P cum dis end in
          let accept := match st with
                        | ByDistortion trial => (negb trial || fits) && f_lt P reached (g_target g)
                        | ByRate => if same then ok else fits
                        end in
          let ok := match st with ByRate => accept | _ => ok end in
          if accept then search st layno g cum k (S i) bs lo new new new ok
          else search st layno g cum k (S i) bs new hi new stable ok
      end
  end.

(** tcd.rs:499-674: layer [layno]; [cum] is the distortion of the layers before. *)
Definition one_layer (st : strategy) (lo hi : F) (layno : nat) (g : goal) (bs : list blk) (cum : F) : option (list blk * F) :=
  match (if g_search g then
           match search st layno g cum 128 0 bs lo hi (f_zero P) (f_zero P) false with
           | None => None
           | Some (bs, thresh, stable) => Some (bs, if f_eq P stable (f_zero P) then thresh else stable)
           end
         else Some (bs, f_minus_one P)) with
  | None => None
  | Some (bs, good) =>
      match makelayer layno good true bs with
      | None => None
      | Some (bs, _, dis) => Some (bs, match layno with O => dis | S _ => f_add P cum dis end)
      end
  end.
Fixpoint layers_from (st : strategy) (lo hi : F) (layno : nat) (gs : list goal) (bs : list blk) (cum : F) : option (list blk) :=
  match gs with
  | [] => Some bs
  | g :: gs =>
      match one_layer st lo hi layno g bs cum with
      | None => None
      | Some (bs, cum) => layers_from st lo hi (S layno) gs bs cum
      end
  end.
(** tcd.rs:370-675 [opj_tcd_rateallocate]: [gs] are the layers of the tile. *)
Definition rateallocate (st : strategy) (gs : list goal) (bs : list blk) : option (list blk) :=
  match all_slopes bs (f_max P, f_zero P) with
  | None => None
  | Some (lo, hi) => layers_from st lo hi 0 gs bs (f_zero P)
  end.

(** ** Fixed allocation

    tcd.rs:279-348 in [opj_tcd_makelayer_fixed], for one block: [m] are the entries of
    the matrix for its resolution and band and the layers, [imsb] is [prec - numbps]. *)
Definition fixed_value (m : nat -> Z) (layno : nat) (imsb : Z) : Z :=
  match layno with
  | O => if m O <=? imsb then 0 else i32 (m O - imsb)
  | S l =>
      let v := i32 (m layno - m l) in
      if m l <=? imsb then Z.max 0 (i32 (v - i32 (imsb - m l))) else v
  end.
Definition make_fixed (m : nat -> Z) (imsb : Z) (layno : nat) (b : blk) : option blk :=
  let v := fixed_value m layno imsb in
  let a := match layno with O => O | S _ => b_in b end in
  let n := match a with
           | O => if v =? 0 then O else Z.to_nat (u32 (3 * u32 v - 2))
           | S _ => Z.to_nat (u32 (u32 (3 * u32 v) + Z.of_nat a))
           end in
  match nth_error (b_layers b) layno with
  | None => None
  | Some y =>
      if (n =? a)%nat then Some (Blk (b_total b) (b_passes b) (put layno (Lay 0 (y_len y) (y_off y) (y_dis y)) (b_layers b)) a) else
      if (n <? a)%nat then None else
      match fill (b_passes b) a n y with
      | None => None
      | Some y' => Some (Blk (b_total b) (b_passes b) (put layno y' (b_layers b)) n)
      end
  end.
(** tcd.rs:47-55 [opj_tcd_rateallocate_fixed], for one block: [k] layers from [layno] on. *)
Fixpoint fixed_layers (m : nat -> Z) (imsb : Z) (k layno : nat) (b : blk) : option blk :=
  match k with
  | O => Some b
  | S k => match make_fixed m imsb layno b with None => None | Some b => fixed_layers m imsb k (S layno) b end
  end.
End Rate.
Arguments Lay {P}. Arguments Blk {P}. Arguments Goal {P}.
Arguments y_passes {P}. Arguments y_len {P}. Arguments y_off {P}. Arguments y_dis {P}.
Arguments b_total {P}. Arguments b_passes {P}. Arguments b_layers {P}. Arguments b_in {P}.
Arguments g_search {P}. Arguments g_target {P}. Arguments g_fits {P}.
