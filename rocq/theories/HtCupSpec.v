(** What the cleanup pass of a high-throughput block codes (ITU-T T.814, 7.3):
    lines of quads, a quad being two by two samples in the order upper left,
    lower left, upper right, lower right.  A sample is not significant, or has a
    sign (true: negative) and a magnitude of one or more.  The tables of code
    words are given. *)

From Coq Require Import ZArith List Bool.
From Verif Require Import HtSpec.
Import ListNotations.
Local Open Scope Z_scope.

Definition smp : Type := option (bool * Z).
Definition cell : Type := list smp.
Definition sig (o : smp) : bool := match o with Some _ => true | None => false end.
(** Least number of bits that hold [2 * magnitude - 1]. *)
Definition expo (o : smp) : Z := match o with Some (_, mu) => Z.log2 (2 * mu - 1) + 1 | None => 0 end.
(** Sample [n] of quad [i] of a line, and of the quad before it. *)
Definition at_ (l : list cell) (i n : nat) : smp := nth n (nth i l []) None.
Definition before (l : list cell) (i n : nat) : smp := match i with O => None | S j => at_ l j n end.

(** Parts of an entry of the tables. *)
Definition q_sig (e : Z) (n : nat) : bool := Z.testbit e (4 + Z.of_nat n).
Definition q_uoff (e : Z) : bool := Z.testbit e 3.
Definition q_e1 (e : Z) (n : nat) : bool := Z.testbit e (8 + Z.of_nat n).
Definition q_ek (e : Z) (n : nat) : bool := Z.testbit e (12 + Z.of_nat n).

Definition bit (b : bool) : Z := if b then 1 else 0.
(** Context: from the quad to the left ([l]: which of its samples are significant)
    for the first line (equation 1), for the others also from the line above
    (equation 2). *)
Definition context (above : option (list cell)) (i : nat) (l : nat -> bool) : Z :=
  match above with
  | None => bit (l 0%nat || l 1%nat) + 2 * bit (l 2%nat) + 4 * bit (l 3%nat)
  | Some a => bit (sig (before a i 3) || sig (at_ a i 1)) + 2 * bit (l 2%nat || l 3%nat) + 4 * bit (sig (at_ a i 3) || sig (at_ a (i + 1) 1))
  end.
(** Predictor of the exponents (equations 4 to 6). *)
Definition two_or_more (e : Z) : bool := 2 <=? bit (q_sig e 0) + bit (q_sig e 1) + bit (q_sig e 2) + bit (q_sig e 3).
Definition kappa (above : option (list cell)) (i : nat) (e : Z) : Z :=
  match above with
  | None => 1
  | Some a =>
      if two_or_more e then
        Z.max 1 (Z.max (Z.max (expo (before a i 3)) (expo (at_ a i 1))) (Z.max (expo (at_ a i 3)) (expo (at_ a (i + 1) 1))) - 1)
      else 1
  end.

(** Bits left of the VLC and the MagSgn segment, and the MEL decoder. *)
Record src := mkSrc { s_vlc : list bool; s_mel : mel_state; s_ms : list bool }.

(** Entry for a quad; in context 0 an event says whether there is one. *)
Definition code_word (tbl : list Z) (c : Z) (s : src) : option (Z * src) :=
  if (length (s_vlc s) <? 7)%nat then None
  else let e := nth (Z.to_nat (128 * c + number (firstn 7 (s_vlc s)))) tbl 0 in
    Some (e, mkSrc (skipn (Z.to_nat (e mod 8)) (s_vlc s)) (s_mel s) (s_ms s)).
Definition quad_code (tbl : list Z) (c : Z) (s : src) : option (Z * src) :=
  if c =? 0 then
    match mel_sym (s_mel s) with
    | None => None
    | Some (true, m) => code_word tbl c (mkSrc (s_vlc s) m (s_ms s))
    | Some (false, m) => Some (0, mkSrc (s_vlc s) m (s_ms s))
    end
  else code_word tbl c s.

(** u values of a pair (7.3.6). *)
Definition with_vlc (s : src) (l : list bool) : src := mkSrc l (s_mel s) (s_ms s).
Definition u_both (k : Z) (s : src) : option (Z * Z * src) :=
  match u_pair (s_vlc s) with Some (u0, u1, l) => Some (u0 + k, u1 + k, with_vlc s l) | None => None end.
Definition u_code (first b0 b1 : bool) (s : src) : option (Z * Z * src) :=
  match b0, b1 with
  | false, false => Some (0, 0, s)
  | true, false => match u_one (s_vlc s) with Some (u, l) => Some (u, 0, with_vlc s l) | None => None end
  | false, true => match u_one (s_vlc s) with Some (u, l) => Some (0, u, with_vlc s l) | None => None end
  | true, true =>
      if first then
        match mel_sym (s_mel s) with
        | None => None
        | Some (true, m) => u_both 2 (mkSrc (s_vlc s) m (s_ms s))
        | Some (false, m) =>
            let s := mkSrc (s_vlc s) m (s_ms s) in
            match u_prefix (s_vlc s) with
            | None => None
            | Some (p, n, l) =>
                if 2 <? p then match l with [] => None | b :: l => Some (p + number (firstn n l), if b then 2 else 1, with_vlc s (skipn n l)) end
                else u_both 0 s
            end
        end
      else u_both 0 s
  end.

(** A significant sample has [U] bits less one if [e_k]; [e_1] comes above them.
    The lowest bit is the sign. *)
Definition one_sample (e U : Z) (n : nat) (s : src) : option (smp * src) :=
  if q_sig e n then
    let m := Z.to_nat (U - bit (q_ek e n)) in
    if (length (s_ms s) <? m)%nat then None
    else
      let v := number (firstn m (s_ms s)) + bit (q_e1 e n) * 2 ^ Z.of_nat m in
      Some (Some (Z.odd v, v / 2 + 1), mkSrc (s_vlc s) (s_mel s) (skipn m (s_ms s)))
  else Some (None, s).
Definition quad_samples (e U : Z) (s : src) : option (cell * src) :=
  match one_sample e U 0 s with None => None | Some (a, s) =>
  match one_sample e U 1 s with None => None | Some (b, s) =>
  match one_sample e U 2 s with None => None | Some (c, s) =>
  match one_sample e U 3 s with None => None | Some (d, s) => Some ([a; b; c; d], s)
  end end end end.

(** Whether a significant sample of quad [i] lies outside the block. *)
Definition outside (width height y : Z) (i : nat) (e : Z) : bool :=
  existsb (fun n => q_sig e n && ((width <=? 2 * Z.of_nat i + Z.of_nat (Nat.div n 2)) || (height <=? y + Z.of_nat (Nat.modulo n 2)))) [0; 1; 2; 3]%nat.

(** The two quads after [done]; [Some None]: not valid. *)
Definition pair_spec (tbl : list Z) (width height zp1 y : Z) (above : option (list cell)) (done : list cell) (s : src) : option (option (list cell * src)) :=
  let i := length done in
  match quad_code tbl (context above i (fun n => sig (before done i n))) s with
  | None => None
  | Some (e0, s) =>
  match (if 2 * Z.of_nat (i + 1) <? width then quad_code tbl (context above (i + 1) (q_sig e0)) s else Some (0, s)) with
  | None => None
  | Some (e1, s) =>
  match u_code (match above with None => true | Some _ => false end) (q_uoff e0) (q_uoff e1) s with
  | None => None
  | Some (u0, u1, s) =>
      let U0 := kappa above i e0 + u0 in
      let U1 := kappa above (i + 1) e1 + u1 in
      if (zp1 <? U0) || (zp1 <? U1) || outside width height y i e0 || outside width height y (i + 1) e1 then Some None
      else
        match quad_samples e0 U0 s with
        | None => None
        | Some (c0, s) => match quad_samples e1 U1 s with None => None | Some (c1, s) => Some (Some (done ++ [c0; c1], s)) end
        end
  end end end.
Fixpoint line_spec (n : nat) (tbl : list Z) (width height zp1 y : Z) (above : option (list cell)) (done : list cell) (s : src) : option (option (list cell * src)) :=
  match n with
  | O => Some (Some (done, s))
  | S n => match pair_spec tbl width height zp1 y above done s with Some (Some (done, s)) => line_spec n tbl width height zp1 y above done s | r => r end
  end.
Fixpoint lines_spec (n : nat) (k : nat) (tbl : list Z) (width height zp1 y : Z) (ls : list (list cell)) (above : list cell) (s : src) : option (option (list (list cell))) :=
  match n with
  | O => Some (Some ls)
  | S n =>
      match line_spec k tbl width height zp1 y (Some above) [] s with
      | Some (Some (l, s)) => lines_spec n k tbl width height zp1 (y + 2) (ls ++ [l]) l s
      | Some None => Some None
      | None => None
      end
  end.
(** Lines of quads of a block: one for each two lines, of pairs for each four columns. *)
Definition block_spec (tbl0 tbl1 : list Z) (width height zp1 : Z) (s : src) : option (option (list (list cell))) :=
  let k := Z.to_nat ((width + 3) / 4) in
  match line_spec k tbl0 width height zp1 0 None [] s with
  | Some (Some (l, s)) => lines_spec (Z.to_nat ((height - 1) / 2)) k tbl1 width height zp1 2 [l] l s
  | Some None => Some None
  | None => None
  end.

(** The sample in column [x] of row [y]; its value is half way between two
    magnitudes, in units of half a step of the lowest bit-plane [p]. *)
Definition sample_at (ls : list (list cell)) (x y : Z) : smp :=
  at_ (nth (Z.to_nat (y / 2)) ls []) (Z.to_nat (x / 2)) (Z.to_nat (2 * (x mod 2) + y mod 2)).
Definition value (p : Z) (o : smp) : Z := match o with None => 0 | Some (s, mu) => (if s then -1 else 1) * ((2 * mu + 1) * 2 ^ (p - 1)) end.
