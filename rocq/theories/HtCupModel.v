(** Model of the cleanup pass of high-throughput blocks, ht_dec.rs:1429-1459,
    1486-2076 and 2815-2833.  [None]: a failed assertion, an index outside a table or bytes,
    or a shift by too much; [Some None]: the block is refused.

    Simplifications: [decoded_data] and [line_state] are maps from offsets to
    values, so that the theorems say which offsets are written; the running
    pointers [sp] and [lsp] are computed from [x] and [y] (they start at
    [y * stride] and 0 and are moved by four and two in each turn); the sixteen
    copies of the code for a sample are one definition, and so are the loops for
    the first and for the other lines of quads, which differ where [first] is
    looked at; the significance maps [sigma1] and [sigma2], which only the
    passes after this one read, are left out. *)

From Coq Require Import ZArith List Bool.
From Verif Require Import Ints HtModel HtLuts.
Import ListNotations.
Local Open Scope Z_scope.

Definition set (m : Z -> Z) (i v : Z) : Z -> Z := fun j => if j =? i then v else m j.
(** ht_dec.rs:147-149. *)
Definition clz (v : Z) : Z := if v =? 0 then 32 else 31 - Z.log2 v.
Definition u8 (x : Z) : Z := Z.land x 255.

(** ht_dec.rs:1519-1533: entry of the table, or 0 after an event that is not set;
    also 1558-1571, 1822-1830 and 1851-1859. *)
Definition quad_vlc (tbl : list Z) (buf : list Z) (c run : Z) (m : mel) (w : Z) : option (Z * Z * mel) :=
  match nth_error tbl (Z.to_nat (Z.lor (shl32 c 7) (Z.land w 127))) with
  | None => None
  | Some q =>
      if c =? 0 then match mel_event buf run m with Some (e, run, m) => Some ((if e : bool then q else 0), run, m) | None => None end
      else Some (q, run, m)
  end.
(** ht_dec.rs:1534 and 1572; 1832 and 1861. *)
Definition next_c (first : bool) (q : Z) : Z :=
  if first then Z.lor (Z.shiftr (Z.land q 16) 4) (Z.shiftr (Z.land q 224) 5) else Z.lor (Z.shiftr (Z.land q 64) 5) (Z.shiftr (Z.land q 128) 6).
(** ht_dec.rs:1817-1818 and 1849-1850: the context completed by the line above. *)
Definition full_c (first : bool) (c l0 l1 : Z) : Z :=
  if first then c else Z.lor (Z.lor c (Z.shiftr l0 7)) (Z.land (Z.shiftr l1 5) 4).
(** ht_dec.rs:1876-1890 and 1891-1905. *)
Definition add_emax (first : bool) (U q l0 l1 : Z) : Z :=
  if first then U
  else if negb (Z.land (Z.land q 240) (u32 (Z.land q 240 - 1)) =? 0) then
    let E := Z.land l0 127 in
    let E := if Z.land l1 127 <? E then E else Z.land l1 127 in
    u32 (U + (if 2 <? E then u32 (E - 2) else 0))
  else U.

(** ht_dec.rs:1644-1656 and the like: value of sample [n] of a quad, and v_n. *)
Definition mag (buf : list Z) (p q U n : Z) (f : frwd) : option (Z * Z * frwd) :=
  match frwd_fetch buf f with
  | None => None
  | Some (w, f) =>
      let m := u32 (U - Z.land (Z.shiftr q (12 + n)) 1) in
      match frwd_advance f m with
      | None => None
      | Some f =>
          if (31 <? m) || (31 <? u32 (p - 1)) then None
          else
            let v := Z.land w (u32 (shl32 1 m - 1)) in
            let v := Z.lor v (shl32 (Z.shiftr (Z.land q (Z.shiftl 256 n)) (8 + n)) m) in
            let v := Z.lor v 1 in
            Some (Z.lor (shl32 w 31) (shl32 (u32 (v + 2)) (u32 (p - 1))), v, f)
      end
  end.
(** ht_dec.rs:1641-1659 and the like: sample [n] at offset [pos], bit [k] of [locs]. *)
Definition sample (buf : list Z) (p q U n locs k pos : Z) (f : frwd) (data : Z -> Z) : option (option Z * frwd * (Z -> Z)) :=
  if negb (Z.land q (Z.shiftl 16 n) =? 0) then
    match mag buf p q U n f with Some (val, v, f) => Some (Some v, f, set data pos val) | None => None end
  else if negb (Z.land locs (Z.shiftl 1 k) =? 0) then Some (None, f, set data pos 0)
  else Some (None, f, data).
(** ht_dec.rs:1641-1716 ([k] = 0) and 1718-1784 ([k] = 4); 1932-2001 and
    2002-2071: the samples of a quad, the first at [sp], and [line_state] at [li]. *)
Definition quad (first : bool) (buf : list Z) (stride p q U locs k li sp : Z) (f : frwd) (data ls : Z -> Z) : option (frwd * (Z -> Z) * (Z -> Z)) :=
  match sample buf p q U 0 locs k sp f data with
  | None => None
  | Some (_, f, data) =>
  match sample buf p q U 1 locs (k + 1) (sp + stride) f data with
  | None => None
  | Some (v, f, data) =>
      let ls := match v with
                | Some v => let t := Z.land (ls li) 127 in let v := u32 (32 - clz v) in set ls li (u8 (Z.lor 128 (if v <? t then t else v)))
                | None => ls
                end in
  match sample buf p q U 2 locs (k + 2) (sp + 1) f data with
  | None => None
  | Some (_, f, data) =>
      let ls := if first then set ls (li + 1) 0 else ls in
  match sample buf p q U 3 locs (k + 3) (sp + 1 + stride) f data with
  | None => None
  | Some (v, f, data) => Some (f, data, match v with Some v => set ls (li + 1) (u8 (Z.lor 128 (u32 (32 - clz v)))) | None => ls end)
  end end end end.

(** What a turn of the loops changes. *)
Record cup := mkCup { k_run : Z; k_mel : mel; k_vlc : rev_st; k_ms : frwd; k_c : Z; k_data : Z -> Z; k_ls : Z -> Z; k_ls0 : Z }.

(** ht_dec.rs:1625-1634; 1918-1926. *)
Definition locs_of (width height x y : Z) : Z :=
  let l := if width <? x + 4 then Z.shiftr 255 (Z.shiftl (x + 4 - width) 1) else 255 in
  if y + 2 <=? height then l else Z.land l 85.

(** One pair of quads: ht_dec.rs:1501-1784 ([first]), where the height is looked
    at with [height > 1]; 1805-2071. *)
Definition pair (first : bool) (buf : list Z) (width height p zp1 y x : Z) (s : cup) : option (option cup) :=
  let tbl := if first then vlc_tbl0 else vlc_tbl1 in
  let li := x / 2 in
  let ls := k_ls s in
  match rev_fetch buf (k_vlc s) with
  | None => None
  | Some (w, vlc) =>
  match quad_vlc tbl buf (full_c first (k_c s) (k_ls0 s) (ls (li + 1))) (k_run s) (k_mel s) w with
  | None => None
  | Some (q0, run, m) =>
  match rev_advance vlc (Z.land q0 7) with
  | None => None
  | Some (w, vlc) =>
  match (if x + 2 <? width then
           match quad_vlc tbl buf (full_c first (next_c first q0) (ls (li + 1)) (ls (li + 2))) run m w with
           | None => None
           | Some (q1, run, m) => match rev_advance vlc (Z.land q1 7) with Some (w, vlc) => Some (q1, next_c first q1, run, m, w, vlc) | None => None end
           end
         else Some (0, next_c first q0, run, m, w, vlc)) with
  | None => None
  | Some (q1, c, run, m, w, vlc) =>
      let mode := Z.lor (Z.shiftr (Z.land q0 8) 3) (Z.shiftr (Z.land q1 8) 2) in
  match (if first && (mode =? 3) then match mel_event buf run m with Some (e, run, m) => Some (mode + one e, run, m) | None => None end else Some (mode, run, m)) with
  | None => None
  | Some (mode, run, m) =>
      let '(used, (U0, U1)) := if first then decode_init_uvlc w mode else decode_noninit_uvlc w mode in
      let U0 := add_emax first U0 q0 (k_ls0 s) (ls (li + 1)) in
      let U1 := add_emax first U1 q1 (ls (li + 1)) (ls (li + 2)) in
      let bad := (zp1 <? U0) || (zp1 <? U1) in
      if first && bad then Some None
      else
  match rev_advance vlc used with
  | None => None
  | Some (_, vlc) =>
      if bad then Some None
      else
        let ls' := if first then ls else set (set ls (li + 2) 0) (li + 1) 0 in
        let locs := locs_of width height x y in
        if negb (Z.land (Z.lor (Z.shiftr (Z.land q0 240) 4) (Z.land q1 240)) (not32 locs) =? 0) then Some None
        else
  match quad first buf width p q0 U0 locs 0 li (y * width + x) (k_ms s) (k_data s) ls' with
  | None => None
  | Some (f, data, ls') =>
  match quad first buf width p q1 U1 locs 4 (li + 1) (y * width + x + 2) f data ls' with
  | None => None
  | Some (f, data, ls') => Some (Some (mkCup run m vlc f c data ls' (ls (li + 2))))
  end end end end end end end end.

(** ht_dec.rs:1500 and 1785, 1804 and 2072: [n] turns. *)
Fixpoint pairs (n : nat) (first : bool) (buf : list Z) (width height p zp1 y x : Z) (s : cup) : option (option cup) :=
  match n with
  | O => Some (Some s)
  | S n => match pair first buf width height p zp1 y x s with Some (Some s) => pairs n first buf width height p zp1 y (x + 4) s | r => r end
  end.
(** [x] goes from 0 by four while it is less than [width]. *)
Definition turns (width : Z) : nat := Z.to_nat ((width + 3) / 4).
(** ht_dec.rs:1789-1803, 2074: lines [y] and up while less than [height]. *)
Fixpoint lines (n : nat) (buf : list Z) (width height p zp1 y : Z) (s : cup) : option (option cup) :=
  match n with
  | O => Some (Some s)
  | S n =>
      let s := mkCup (k_run s) (k_mel s) (k_vlc s) (k_ms s) 0 (k_data s) (set (k_ls s) 0 0) (k_ls s 0) in
      match pairs (turns width) false buf width height p zp1 y 0 s with
      | Some (Some s) => lines n buf width height p zp1 (y + 2) s
      | r => r
      end
  end.
(** ht_dec.rs:2815-2833; the offsets of all samples, [stride] being [width]. *)
Definition twos_complement (v : Z) : Z := let a := Z.land v 2147483647 in if negb (Z.land v 2147483648 =? 0) then - a else a.
Definition convert (size : Z) (data : Z -> Z) : Z -> Z := fun i => if (0 <=? i) && (i <? size) then twos_complement (data i) else data i.

(** ht_dec.rs:1450-1459 (without the other passes) and 1486-1499 and so on: from
    the bytes of the block to its samples.  [data] and [ls] are what the memory
    holds before. *)
Definition cup_block (base : Z) (buf : list Z) (lcup scup width height p zp1 : Z) (data ls : Z -> Z) : option (option (Z -> Z)) :=
  match mel_init base buf lcup scup with
  | None => None
  | Some None => Some None
  | Some (Some m) =>
  match rev_init base buf lcup scup with
  | None => None
  | Some v =>
  match frwd_init base buf 0 (lcup - scup) 255 with
  | None => None
  | Some f =>
  match mel_get_run buf m with
  | None => None
  | Some (run, m) =>
      let s := mkCup run m v f 0 data (set ls 0 0) 0 in
  match pairs (turns width) true buf width height p zp1 0 0 s with
  | Some (Some s) =>
      match lines (Z.to_nat ((height - 1) / 2)) buf width height p zp1 2 s with
      | Some (Some s) => Some (Some (convert (width * height) (k_data s)))
      | Some None => Some None
      | None => None
      end
  | Some None => Some None
  | None => None
  end end end end end.

(** ht_dec.rs:1260-1270 and 1395-1448: what is refused before, [p] and
    [zero_bplanes_p1]; one segment, [lcup] bytes of [buf]. *)
Definition cup_decode (base : Z) (buf : list Z) (lcup width height Mb numbps : Z) (data ls : Z -> Z) : option (option (Z -> Z)) :=
  if Mb =? 0 then Some (Some data)
  else
    let zb := u32 (Mb + 1 - numbps) in
    if 30 <? Mb then Some None
    else if Mb <? zb then Some None
    else if (lcup <? 2) || (Z.of_nat (length buf) <? lcup) then Some None
    else
      match byte_at buf (lcup - 1), byte_at buf (lcup - 2) with
      | Some a, Some b =>
          let scup := Z.shiftl a 4 + Z.land b 15 in
          if (scup <? 2) || (lcup <? scup) || (4079 <? scup) then Some None
          else cup_block base buf lcup scup width height numbps (u32 (zb + 1)) data ls
      | _, _ => None
      end.
