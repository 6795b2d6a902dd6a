(** What a main header says, stated without reference to the code. *)

From Coq Require Import ZArith List Bool.
From Verif Require Import MathProps HdrModel.
Import ListNotations.
Local Open Scope Z_scope.

(** An image of the extent [i0, i1) on one axis, tiles of size [td] starting at [t0]. *)
Definition axis_ok (i0 i1 t0 td : Z) : Prop := 0 <= t0 <= i0 /\ i0 < i1 < 2 ^ 32 /\ 0 < td < 2 ^ 32 /\ i0 < t0 + td.
Definition comp_ok (c : comp) : Prop :=
  1 <= c_prec c <= 31 /\ 0 <= c_sgnd c <= 1 /\ 1 <= c_dx c <= 255 /\ 1 <= c_dy c <= 255.
Definition tiles_ok (s : siz) : Prop :=
  exists tw th, ceil_of (x1 s - tx0 s) (tdx s) tw /\ ceil_of (y1 s - ty0 s) (tdy s) th /\ tw * th <= 65535.
Definition siz_ok (s : siz) : Prop :=
  0 <= rsiz s < 2 ^ 16 /\ axis_ok (x0 s) (x1 s) (tx0 s) (tdx s) /\ axis_ok (y0 s) (y1 s) (ty0 s) (tdy s) /\
  1 <= numcomps s <= 16384 /\ Forall comp_ok (comps s) /\ tiles_ok s.
(** The container gives no size or this size. *)
Definition fits (ihdr : Z * Z) (s : siz) : Prop :=
  fst ihdr <= 0 \/ snd ihdr <= 0 \/ ihdr = (x1 s - x0 s, y1 s - y0 s).

(** Coding style of a component: resolutions (more than are discarded), code
    blocks, transform, precincts. *)
Definition style_ok (reduce : Z) (t : tccp) : Prop :=
  1 <= numres t <= 33 /\ reduce < numres t /\ 2 <= cblkw t <= 10 /\ 2 <= cblkh t <= 10 /\ cblkw t + cblkh t <= 12 /\
  0 <= cblksty t < 128 /\ 0 <= qmfbid t <= 1 /\
  forall r, 0 <= r < numres t -> 0 <= prcw t r <= 15 /\ 0 <= prch t r <= 15 /\ (r <> 0 -> prcw t r <> 0 /\ prch t r <> 0).
(** Without the custom precinct bit precincts have the largest size. *)
Definition default_prc (t : tccp) : Prop :=
  Z.testbit (csty t) 0 = false -> forall r, 0 <= r < numres t -> prcw t r = 15 /\ prch t r = 15.
Definition same_style (a b : tccp) : Prop :=
  Z.testbit (csty a) 0 = Z.testbit (csty b) 0 /\ numres a = numres b /\ cblkw a = cblkw b /\ cblkh a = cblkh b /\
  cblksty a = cblksty b /\ qmfbid a = qmfbid b /\ forall r, 0 <= r < numres a -> prcw a r = prcw b r /\ prch a r = prch b r.

(** Quantisation of a component: bands that matter, and the step size of a band
    (ISO 15444-1 equation E-5 for derived step sizes). *)
Definition bands (t : tccp) : Z := if qntsty t =? 1 then 97 else 3 * numres t - 2.
Definition step (t : tccp) (b : Z) : Z * Z :=
  if (qntsty t =? 1) && (0 <? b) then (Z.max 0 (expn t 0 - (b - 1) / 3), mant t 0)
  else (expn t b, if qntsty t =? 0 then 0 else mant t b).
Definition quant_ok (t : tccp) : Prop :=
  0 <= qntsty t <= 2 /\ 0 <= numgbits t <= 7 /\ forall b, 0 <= b < bands t -> 0 <= expn t b < 32 /\ 0 <= mant t b < 2048.
(** [b] holds the quantisation that [a] says. *)
Definition same_quant (a b : tccp) : Prop :=
  qntsty b = qntsty a /\ numgbits b = numgbits a /\ forall i, 0 <= i < bands a -> (expn b i, mant b i) = step a i.

(** A change of progression order, for [n] components and [layers] layers. *)
Definition poc_ok (n layers : Z) (p : poc) : Prop :=
  0 <= p_res0 p <= 255 /\ 0 <= p_comp0 p < n /\ 0 <= p_lay1 p <= layers /\ 0 <= p_res1 p <= 255 /\ 0 <= p_comp1 p <= n /\
  0 <= p_prg p <= 255.
(** The end component can be written. *)
Definition poc_fits (n : Z) (p : poc) : Prop := n <= 256 -> p_comp1 p <= 255.

(** The level shift of a component: half the range of unsigned samples. *)
Definition shift_of (c : comp) : Z := if c_sgnd c =? 0 then 2 ^ (c_prec c - 1) else 0.

(** ** What an accepted header keeps to (C44) *)

(** What is kept of one component whatever segments come: quantisation, region shift. *)
Definition quant_range (t : tccp) : Prop :=
  0 <= csty t <= 255 /\ 0 <= qntsty t <= 31 /\ 0 <= numgbits t <= 7 /\ 0 <= roishift t <= 255 /\
  forall b, 0 <= b < 97 -> 0 <= expn t b <= 31 /\ 0 <= mant t b <= 2047.
Definition poc_range (n : Z) (p : poc) : Prop :=
  0 <= p_res0 p <= 255 /\ 0 <= p_comp0 p <= 65535 /\ 0 <= p_lay1 p <= 65535 /\ 0 <= p_res1 p <= 255 /\ 0 <= p_comp1 p <= n /\
  0 <= p_prg p <= 255.
Definition cod_range (t : tcp) : Prop :=
  0 <= t_csty t <= 7 /\ -1 <= t_prg t <= 4 /\ 1 <= t_layers t <= 65535 /\ 0 <= t_mct t <= 1.
(** The ranges kept for the default parameters [t] once SIZ was [s]; [cod]:
    whether a COD was seen. *)
Definition tcp_range (reduce : Z) (s : siz) (cod : bool) (t : tcp) : Prop :=
  0 <= t_layers t <= 65535 /\ map dcshift (t_comps t) = map shift_of (comps s) /\ Forall quant_range (t_comps t) /\
  (List.length (t_pocs t) < 32)%nat /\ Forall (poc_range (numcomps s)) (t_pocs t) /\
  (cod = true -> cod_range t /\ Forall (style_ok reduce) (t_comps t)).
Definition good (ihdr : Z * Z) (reduce : Z) (h : hdr) : Prop :=
  match h_siz h with
  | None => h = hdr0
  | Some s => siz_ok s /\ fits ihdr s /\ tcp_range reduce s (h_cod h) (h_tcp h)
  end.
