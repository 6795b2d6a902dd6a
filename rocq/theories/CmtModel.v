(** Model of the marker segments of custom component transforms: CBD, MCT, MCC and
    MCO, j2k.rs:4823-4860, 5068-6036, their set-up in the encoder, j2k.rs:7924-8123,
    and the copy of the default tile parameters for the tiles, j2k.rs:8464-8618.
    [None]: a read or write outside a segment, an array or through a pointer into an
    array that was moved; [Some None]: refused with an error.

    Simplifications: the bytes of a segment that are left are a list (HdrModel.rd);
    an array is the list of all entries it has room for; the array of MCT records
    moves whenever it is reallocated, [gen] counts the moves and a pointer into it is
    the count at which it was made with the index; allocation fails only for size 0
    (malloc.rs:129-135); [m_data_size] is the length of the data, 0 without (the
    readers keep it so); counters are not wrapped (there are at most 256 records of
    each kind, see C79).  Floats are their bit patterns. *)

From Coq Require Import ZArith List Bool.
From Verif Require Import Ints CioModel HdrModel.
Import ListNotations.
Local Open Scope Z_scope.

Definition bytes := list Z.
Definition len {A} (l : list A) : Z := Z.of_nat (length l).
Definition ptr := (nat * nat)%type.

(** types.rs:412-418 *)
Record mrec := MRec { r_index : Z; r_array : Z; r_elem : Z; r_data : option bytes }.
Definition rec_bytes (r : mrec) : bytes := match r_data r with Some d => d | None => [] end.
(** types.rs:398-405 *)
Record crec := CRec { c_index : Z; c_nb : Z; c_deco : option ptr; c_off : option ptr; c_irr : bool }.
(** The part of [opj_tcp], with the [m_dc_level_shift] of its [tccps]. *)
Record cmt := Cmt {
  gen : nat;
  mcts : list mrec; nmct : nat; maxmct : nat;
  mccs : list crec; nmcc : nat; maxmcc : nat;
  matrix : option (list Z); shifts : list Z }.
(** Zeroed memory. *)
Definition mrec0 : mrec := MRec 0 0 0 None.
Definition crec0 : crec := CRec 0 0 None None false.

Definition put {A} (i : nat) (x : A) (l : list A) : list A := firstn i l ++ x :: skipn (S i) l.

(** ** Numbers *)

Definition i32 (v : Z) : Z := let r := v mod 2 ^ 32 in if r <? 2 ^ 31 then r else r - 2 ^ 32.
(** Casts of the language between integers and binary32 or binary64: rounding of
    m * 2^e to the nearest binary32, ties to even, and truncation towards zero with
    saturation; a NaN becomes some NaN (no property tells which) or the integer 0. *)
Definition halve (m s : Z) : Z :=
  let q := m / 2 ^ s in let r := m mod 2 ^ s in
  if (2 ^ s <? 2 * r) || ((2 * r =? 2 ^ s) && Z.odd q) then q + 1 else q.
Definition f32_of (neg : bool) (m e : Z) : Z :=
  let sign := if neg then 2 ^ 31 else 0 in
  if m =? 0 then sign
  else
    let q := Z.max (Z.log2 m + e - 23) (-149) in
    let r := if q <=? e then m * 2 ^ (e - q) else halve m (q - e) in
    sign + Z.min (255 * 2 ^ 23) (if r <? 2 ^ 23 then r else (q + 150) * 2 ^ 23 + (r - 2 ^ 23)).
Definition f32_int (v : Z) : Z := f32_of (v <? 0) (Z.abs v) 0.
Definition to_i32 (neg : bool) (m e : Z) : Z :=
  let a := if 0 <=? e then m * 2 ^ e else m / 2 ^ (- e) in
  Z.max (- 2 ^ 31) (Z.min (2 ^ 31 - 1) (if neg then - a else a)).
Definition i32_of_f32 (b : Z) : Z :=
  let neg := 2 ^ 31 <=? b in let e := (b / 2 ^ 23) mod 256 in let f := b mod 2 ^ 23 in
  if e =? 255 then if f =? 0 then to_i32 neg 1 31 else 0
  else if e =? 0 then to_i32 neg f (-149) else to_i32 neg (2 ^ 23 + f) (e - 150).
Definition i32_of_f64 (b : Z) : Z :=
  let neg := 2 ^ 63 <=? b in let e := (b / 2 ^ 52) mod 2048 in let f := b mod 2 ^ 52 in
  if e =? 2047 then if f =? 0 then to_i32 neg 1 31 else 0
  else if e =? 0 then to_i32 neg f (-1074) else to_i32 neg (2 ^ 52 + f) (e - 1075).
Definition f32_of_f64 (b : Z) : Z :=
  let neg := 2 ^ 63 <=? b in let e := (b / 2 ^ 52) mod 2048 in let f := b mod 2 ^ 52 in
  if e =? 2047 then (if neg then 2 ^ 31 else 0) + 255 * 2 ^ 23 + (if f =? 0 then 0 else 2 ^ 22)
  else if e =? 0 then f32_of neg f (-1074) else f32_of neg (2 ^ 52 + f) (e - 1075).

(** j2k.rs:90-97 *)
Definition elem_size (e : Z) : Z := if e =? 0 then 2 else if e =? 3 then 8 else 4.
(** j2k.rs:463-550: one element to a float. *)
Definition elem_float (e : Z) (d : bytes) : option (Z * bytes) :=
  if e =? 0 then match rd 2 d with Some (v, d) => Some (f32_int v, d) | None => None end
  else if e =? 1 then match rd 4 d with Some (v, d) => Some (f32_int v, d) | None => None end
  else if e =? 2 then rd 4 d
  else match read_double d 0 with Some v => Some (f32_of_f64 v, skipn 8 d) | None => None end.
(** j2k.rs:552-637: one element to an integer. *)
Definition elem_int (e : Z) (d : bytes) : option (Z * bytes) :=
  if e =? 0 then match rd 2 d with Some (v, d) => Some (i32 v, d) | None => None end
  else if e =? 1 then match rd 4 d with Some (v, d) => Some (i32 v, d) | None => None end
  else if e =? 2 then match rd 4 d with Some (v, d) => Some (i32_of_f32 v, d) | None => None end
  else match read_double d 0 with Some v => Some (i32_of_f64 v, skipn 8 d) | None => None end.
(** The loops around them. *)
Fixpoint elems (f : bytes -> option (Z * bytes)) (n : nat) (d : bytes) : option (list Z) :=
  match n with
  | O => Some []
  | S n => match f d with Some (v, d) => match elems f n d with Some l => Some (v :: l) | None => None end | None => None end
  end.

(** ** Reading *)

(** j2k.rs:5189-5197 and 5447-5456: the entry with index [ix], or the number of entries. *)
Fixpoint find {A} (index : A -> Z) (l : list A) (n i : nat) (ix : Z) : option nat :=
  match n with
  | O => Some i
  | S n => match nth_error l i with None => None | Some r => if index r =? ix then Some i else find index l n (S i) ix end
  end.

(** j2k.rs:5221-5246: the pointers of an MCC record after the array of MCT records moved. *)
Definition rebase (g : nat) (p : option ptr) : option (option ptr) :=
  match p with
  | None => Some None
  | Some (h, j) => if (h =? g)%nat then Some (Some (S g, j)) else None
  end.
Definition rebase_rec (g : nat) (c : crec) : option crec :=
  match rebase g (c_deco c), rebase g (c_off c) with
  | Some d, Some o => Some (CRec (c_index c) (c_nb c) d o (c_irr c))
  | _, _ => None
  end.
Fixpoint rebase_all (g : nat) (n : nat) (l : list crec) : option (list crec) :=
  match n, l with
  | O, l => Some l
  | S n, [] => None
  | S n, c :: l => match rebase_rec g c, rebase_all g n l with Some c, Some l => Some (c :: l) | _, _ => None end
  end.
(** j2k.rs:5199-5263: a new MCT record. *)
Definition new_mct (t : cmt) : option cmt :=
  if (nmct t =? maxmct t)%nat then
    match rebase_all (gen t) (nmcc t) (mccs t) with
    | None => None
    | Some l =>
        Some (Cmt (S (gen t)) (firstn (nmct t) (mcts t) ++ repeat mrec0 (maxmct t + 10 - nmct t)) (S (nmct t)) (maxmct t + 10)
                l (nmcc t) (maxmcc t) (matrix t) (shifts t))
    end
  else Some (Cmt (gen t) (mcts t) (S (nmct t)) (maxmct t) (mccs t) (nmcc t) (maxmcc t) (matrix t) (shifts t)).
Definition set_mct (t : cmt) (i : nat) (r : mrec) : option cmt :=
  if (i <? length (mcts t))%nat then
    Some (Cmt (gen t) (put i r (mcts t)) (nmct t) (maxmct t) (mccs t) (nmcc t) (maxmcc t) (matrix t) (shifts t))
  else None.

(** j2k.rs:5146-5292 [opj_j2k_read_mct] *)
Definition read_mct (t : cmt) (seg : bytes) : option (option cmt) :=
  if len seg <? 2 then Some None else
  match rd 2 seg with None => None | Some (z, d) =>
  if negb (z =? 0) then Some (Some t) else
  if len seg <=? 6 then Some None else
  match rd 2 d with None => None | Some (im, d) =>
  let ix := Z.land im 255 in
  match find r_index (mcts t) (nmct t) 0 ix with None => None | Some i =>
  match (if (i =? nmct t)%nat then new_mct t else Some t) with None => None | Some t =>
  match rd 2 d with None => None | Some (y, d) =>
  let r := MRec ix (Z.land (Z.shiftr im 8) 3) (Z.land (Z.shiftr im 10) 3) (if y =? 0 then Some d else None) in
  match set_mct t i r with None => None | Some t => Some (Some t)
  end end end end end end.

(** j2k.rs:5458-5500: room for a new MCC record, which is not counted yet. *)
Definition mcc_room (t : cmt) : cmt :=
  if (nmcc t =? maxmcc t)%nat then
    Cmt (gen t) (mcts t) (nmct t) (maxmct t) (firstn (nmcc t) (mccs t) ++ repeat crec0 (maxmcc t + 10 - nmcc t)) (nmcc t) (maxmcc t + 10)
      (matrix t) (shifts t)
  else t.
Definition set_mcc (t : cmt) (i : nat) (c : crec) : cmt :=
  Cmt (gen t) (mcts t) (nmct t) (maxmct t) (put i c (mccs t)) (nmcc t) (maxmcc t) (matrix t) (shifts t).
Definition count_mcc (t : cmt) : cmt :=
  Cmt (gen t) (mcts t) (nmct t) (maxmct t) (mccs t) (S (nmcc t)) (maxmcc t) (matrix t) (shifts t).

(** j2k.rs:5554-5568 and 5596-5610: are the [n] components from [j] on in order? *)
Fixpoint in_order (w : nat) (n : nat) (j : Z) (d : bytes) : option (bool * bytes) :=
  match n with
  | O => Some (true, d)
  | S n => match rd w d with None => None | Some (v, d) => if v =? j then in_order w n (j + 1) d else Some (false, d) end
  end.
(** j2k.rs:5616-5650: the MCT record with index [ix], none for 0.  [Some None]: there is none. *)
Definition array_of (t : cmt) (ix : Z) : option (option (option ptr)) :=
  if ix =? 0 then Some (Some None)
  else
    match find r_index (mcts t) (nmct t) 0 ix with
    | None => None
    | Some j => if (j =? nmct t)%nat then Some None else Some (Some (Some (gen t, j)))
    end.

(** How the reading of a collection ends: with an error, with a warning, or with [size] bytes left. *)
Inductive coll := Refused | Ignored (t : cmt) | Read (t : cmt) (size : Z).
(** j2k.rs:5520-5652: the collection of MCC record [i], [c]. *)
Definition collection (t : cmt) (i : nat) (c : crec) (size : Z) (d : bytes) : option coll :=
  if size <? 3 then Some Refused else
  match rd 1 d with None => None | Some (x, d) =>
  if negb (x =? 1) then Some (Ignored t) else
  match rd 2 d with None => None | Some (v, d) =>
  let size := u32 (size - 3) in
  let w := 1 + Z.shiftr v 15 in
  let n := Z.land v 32767 in
  let t := set_mcc t i (CRec (c_index c) n (c_deco c) (c_off c) (c_irr c)) in
  if size <? u32 (u32 (w * n) + 2) then Some Refused else
  let size := u32 (size - u32 (u32 (w * n) + 2)) in
  match in_order (Z.to_nat w) (Z.to_nat n) 0 d with None => None | Some (false, _) => Some (Ignored t) | Some (true, d) =>
  match rd 2 d with None => None | Some (v, d) =>
  let w := 1 + Z.shiftr v 15 in
  if negb (Z.land v 32767 =? n) then Some (Ignored t) else
  if size <? u32 (u32 (w * n) + 3) then Some Refused else
  let size := u32 (size - u32 (u32 (w * n) + 3)) in
  match in_order (Z.to_nat w) (Z.to_nat n) 0 d with None => None | Some (false, _) => Some (Ignored t) | Some (true, d) =>
  match rd 3 d with None => None | Some (v, d) =>
  match array_of t (Z.land v 255) with None => None | Some None => Some Refused | Some (Some deco) =>
  match array_of t (Z.land (Z.shiftr v 8) 255) with None => None | Some None => Some Refused | Some (Some off) =>
  Some (Read (set_mcc t i (CRec (c_index c) n deco off (Z.land (Z.shiftr v 16) 1 =? 0))) size)
  end end end end end end end end.

(** j2k.rs:5407-5663 [opj_j2k_read_mcc] *)
Definition read_mcc (t : cmt) (seg : bytes) : option (option cmt) :=
  if len seg <? 2 then Some None else
  match rd 2 seg with None => None | Some (z, d) =>
  if negb (z =? 0) then Some (Some t) else
  if len seg <? 7 then Some None else
  match rd 1 d with None => None | Some (ix, d) =>
  match find c_index (mccs t) (nmcc t) 0 ix with None => None | Some i =>
  let new := (i =? nmcc t)%nat in
  let t := if new then mcc_room t else t in
  match nth_error (mccs t) i with None => None | Some c =>
  let c := CRec ix (c_nb c) (c_deco c) (c_off c) (c_irr c) in
  let t := set_mcc t i c in
  match rd 2 d with None => None | Some (y, d) =>
  if negb (y =? 0) then Some (Some t) else
  match rd 2 d with None => None | Some (q, d) =>
  if 1 <? q then Some (Some t) else
  let size := u32 (len seg - 7) in
  match (if q =? 0 then Some (Read t size) else collection t i c size d) with
  | None => None
  | Some Refused => Some None
  | Some (Ignored t) => Some (Some t)
  | Some (Read t size) => if negb (size =? 0) then Some None else Some (Some (if new then count_mcc t else t))
  end end end end end end end.

(** Reading through a pointer into the MCT records. *)
Definition deref (t : cmt) (p : ptr) : option mrec := if (fst p =? gen t)%nat then nth_error (mcts t) (snd p) else None.
Definition set_matrix (t : cmt) (m : option (list Z)) : cmt :=
  Cmt (gen t) (mcts t) (nmct t) (maxmct t) (mccs t) (nmcc t) (maxmcc t) m (shifts t).
(** j2k.rs:5778-5782 and 5885-5892: the first entries of [tccps]. *)
Definition set_shifts (t : cmt) (l : list Z) : option cmt :=
  if (length l <=? length (shifts t))%nat then
    Some (Cmt (gen t) (mcts t) (nmct t) (maxmct t) (mccs t) (nmcc t) (maxmcc t) (matrix t) (l ++ skipn (length l) (shifts t)))
  else None.
(** j2k.rs:5833-5857; [n] is [numcomps]. *)
Definition add_deco (t : cmt) (n : Z) (p : option ptr) : option (option cmt) :=
  match p with
  | None => Some (Some t)
  | Some p =>
      match deref t p with
      | None => None
      | Some r =>
          if negb (len (rec_bytes r) =? u32 (u32 (elem_size (r_elem r) * n) * n)) then Some None else
          let k := u32 (n * n) in let size := u32 (k * 4) in
          if size =? 0 then Some None else
          if size <? 4 * k then None else
          match elems (elem_float (r_elem r)) (Z.to_nat k) (rec_bytes r) with
          | None => None
          | Some m => Some (Some (set_matrix t (Some m)))
          end
      end
  end.
(** j2k.rs:5858-5893 *)
Definition add_off (t : cmt) (n : Z) (p : option ptr) : option (option cmt) :=
  match p with
  | None => Some (Some t)
  | Some p =>
      match deref t p with
      | None => None
      | Some r =>
          if negb (len (rec_bytes r) =? u32 (elem_size (r_elem r) * n)) then Some None else
          let size := u32 (n * 4) in
          if size =? 0 then Some None else
          if size <? 4 * n then None else
          match elems (elem_int (r_elem r)) (Z.to_nat n) (rec_bytes r) with
          | None => None
          | Some l => match set_shifts t l with None => None | Some t => Some (Some t) end
          end
      end
  end.
(** j2k.rs:5799-5896 [opj_j2k_add_mct]: the loop over the MCC records does not advance
    its pointer, so it looks at the first record each time. *)
Definition add_mct (t : cmt) (n ix : Z) : option (option cmt) :=
  if (nmcc t =? 0)%nat then Some (Some t) else
  match nth_error (mccs t) 0 with None => None | Some c =>
  if negb (c_index c =? ix) then Some (Some t) else
  if negb (c_nb c =? n) then Some (Some t) else
  match add_deco t n (c_deco c) with
  | None => None
  | Some None => Some None
  | Some (Some t) => add_off t n (c_off c)
  end end.

(** j2k.rs:5736-5798 [opj_j2k_read_mco] *)
Definition read_mco (t : cmt) (n : Z) (seg : bytes) : option (option cmt) :=
  if len seg <? 1 then Some None else
  match rd 1 seg with None => None | Some (k, d) =>
  if 1 <? k then Some (Some t) else
  if negb (len seg =? k + 1) then Some None else
  match set_shifts t (repeat 0 (Z.to_nat n)) with None => None | Some t =>
  let t := set_matrix t None in
  if k =? 0 then Some (Some t)
  else match rd 1 d with None => None | Some (ix, _) => add_mct t n ix end
  end end.

(** j2k.rs:6008-6036: one component after the other; [comps] are (prec, sgnd). *)
Fixpoint read_defs (n : nat) (d : bytes) : option (option (list (Z * Z))) :=
  match n with
  | O => Some (Some [])
  | S n =>
      match rd 1 d with
      | None => None
      | Some (v, d) =>
          let prec := Z.land v 127 + 1 in
          if 31 <? prec then Some None
          else match read_defs n d with Some (Some l) => Some (Some ((prec, Z.land (Z.shiftr v 7) 1) :: l)) | r => r end
      end
  end.
(** j2k.rs:5978-6036 [opj_j2k_read_cbd] *)
Definition read_cbd (comps : list (Z * Z)) (seg : bytes) : option (option (list (Z * Z))) :=
  if negb (len seg =? u32 (len comps + 2)) then Some None else
  match rd 2 seg with None => None | Some (n, d) =>
  if negb (n =? len comps) then Some None else read_defs (length comps) d
  end.

(** The parameters with the components of the image. *)
Definition dec := (cmt * list (Z * Z))%type.
(** j2k.rs:8374-8381 and 9187-9194: a segment is given to the reader of its marker. *)
Definition segment (s : dec) (m : Z) (seg : bytes) : option (option dec) :=
  let '(t, comps) := s in
  let with_comps r := match r with Some (Some t) => Some (Some (t, comps)) | Some None => Some None | None => None end in
  if m =? CBD then match read_cbd comps seg with Some (Some c) => Some (Some (t, c)) | Some None => Some None | None => None end
  else if m =? MCT then with_comps (read_mct t seg)
  else if m =? MCC then with_comps (read_mcc t seg)
  else if m =? MCO then with_comps (read_mco t (len comps) seg)
  else Some (Some s).
(** A sequence of them. *)
Fixpoint segments (s : dec) (l : list (Z * bytes)) : option (option dec) :=
  match l with
  | [] => Some (Some s)
  | (m, seg) :: l => match segment s m seg with Some (Some s) => segments s l | r => r end
  end.

(** j2k.rs:1447-1485: the default parameters after SIZ. *)
Definition default (comps : list (Z * Z)) : cmt :=
  Cmt 0 (repeat mrec0 10) 0 10 (repeat crec0 10) 0 10 None
    (map (fun c => if snd c =? 0 then i32 (2 ^ (fst c - 1)) else 0) comps).

(** j2k.rs:8499-8611: the parameters of a tile are copied from the default ones, whose
    array of MCT records the copied pointers are taken from. *)
Definition retarget (g : nat) (p : option ptr) : option (option ptr) :=
  match p with None => Some None | Some (h, j) => if (h =? g)%nat then Some (Some (O, j)) else None end.
Fixpoint retarget_all (g : nat) (l : list crec) : option (list crec) :=
  match l with
  | [] => Some []
  | c :: l =>
      match retarget g (c_deco c), retarget g (c_off c), retarget_all g l with
      | Some d, Some o, Some l => Some (CRec (c_index c) (c_nb c) d o (c_irr c) :: l)
      | _, _, _ => None
      end
  end.
Definition copy_default (t : cmt) : option (option cmt) :=
  if (length (mcts t) <? maxmct t)%nat || (length (mccs t) <? maxmcc t)%nat || (length (mcts t) <? nmct t)%nat then None else
  if (maxmct t =? 0)%nat || (maxmcc t =? 0)%nat then Some None else
  match retarget_all (gen t) (firstn (maxmcc t) (mccs t)) with
  | None => None
  | Some l => Some (Some (Cmt 0 (firstn (maxmct t) (mcts t)) (nmct t) (nmct t) l (nmcc t) (maxmcc t) (matrix t) (shifts t)))
  end.

(** ** Writing *)

(** j2k.rs:7924-8123 [opj_j2k_setup_mct_encoding] for a tile with [mct] = 2; [n] is
    [numcomps].  The records are put at the end of the arrays. *)
Definition grow_mct (t : cmt) : cmt :=
  if (nmct t =? maxmct t)%nat then
    Cmt (S (gen t)) (firstn (nmct t) (mcts t) ++ repeat mrec0 (maxmct t + 10 - nmct t)) (nmct t) (maxmct t + 10)
      (mccs t) (nmcc t) (maxmcc t) (matrix t) (shifts t)
  else t.
Definition push_mct (t : cmt) (r : mrec) : option cmt :=
  match set_mct (grow_mct t) (nmct t) r with
  | None => None
  | Some t => Some (Cmt (gen t) (mcts t) (S (nmct t)) (maxmct t) (mccs t) (nmcc t) (maxmcc t) (matrix t) (shifts t))
  end.
Definition put_floats (l : list Z) : bytes := flat_map to_be4 l.
Definition setup (t : cmt) (n : Z) : option (option cmt) :=
  match (match matrix t with
         | None => Some (Some (t, 1, false))
         | Some m =>
             let k := u32 (n * n) in let size := u32 (k * 4) in
             if size =? 0 then Some None else
             if (size <? 4 * k) || (len m <? k) then None else
             match push_mct t (MRec 1 1 2 (Some (put_floats (firstn (Z.to_nat k) m)))) with
             | None => None
             | Some t => Some (Some (t, 2, true))
             end
         end) with
  | None => None
  | Some None => Some None
  | Some (Some (t, ix, with_deco)) =>
      let size := u32 (n * 4) in
      if size =? 0 then Some None else
      if (size <? 4 * n) || (len (shifts t) <? n) then None else
      match push_mct t (MRec ix 2 2 (Some (put_floats (map f32_int (firstn (Z.to_nat n) (shifts t)))))) with
      | None => None
      | Some t =>
          let t := mcc_room t in
          let at_ k := Some (gen t, (nmct t - k)%nat) in
          Some (Some (count_mcc (set_mcc t (nmcc t) (CRec (ix + 1) n (if with_deco then at_ 2%nat else None) (at_ 1%nat) true))))
      end
  end.

(** j2k.rs:5068-5131 [opj_j2k_write_mct_record] *)
Definition write_mct (r : mrec) : bytes :=
  let size := u32 (10 + len (rec_bytes r)) in
  be 2 MCT ++ be 2 (u32 (size - 2)) ++ be 2 0 ++
  be 2 (Z.lor (Z.lor (Z.land (r_index r) 255) (u32 (Z.shiftl (r_array r) 8))) (u32 (Z.shiftl (r_elem r) 10))) ++
  be 2 0 ++ rec_bytes r.
(** j2k.rs:5363-5374: the components in order. *)
Definition write_order (w : nat) (n : Z) : bytes := flat_map (fun i => be w (Z.of_nat i)) (seq 0 (Z.to_nat n)).
(** j2k.rs:5299-5399 [opj_j2k_write_mcc_record] *)
Definition write_mcc (t : cmt) (c : crec) : option bytes :=
  let w := if 255 <? c_nb c then 2%nat else 1%nat in
  let mask := if 255 <? c_nb c then 32768 else 0 in
  let size := u32 (u32 (u32 (c_nb c * 2) * Z.of_nat w) + 19) in
  let index p := match p with None => Some 0 | Some p => match deref t p with Some r => Some (r_index r) | None => None end end in
  match index (c_deco c), index (c_off c) with
  | Some deco, Some off =>
      Some (be 2 MCC ++ be 2 (u32 (size - 2)) ++ be 2 0 ++ be 1 (c_index c) ++ be 2 0 ++ be 2 1 ++ be 1 1 ++
            be 2 (Z.lor (c_nb c) mask) ++ write_order w (c_nb c) ++ be 2 (Z.lor (c_nb c) mask) ++ write_order w (c_nb c) ++
            be 3 (Z.lor (Z.lor (if c_irr c then 0 else 65536) deco) (u32 (Z.shiftl off 8))))
  | _, _ => None
  end.
(** j2k.rs:5670-5718 [opj_j2k_write_mco] *)
Definition write_mco (t : cmt) : bytes :=
  let size := u32 (5 + Z.of_nat (nmcc t)) in
  be 2 MCO ++ be 2 (u32 (size - 2)) ++ be 1 (Z.of_nat (nmcc t)) ++ flat_map (fun c => be 1 (c_index c)) (firstn (nmcc t) (mccs t)).
(** j2k.rs:5903-5964 [opj_j2k_write_cbd] *)
Definition write_cbd (comps : list (Z * Z)) : bytes :=
  let size := u32 (6 + len comps) in
  be 2 CBD ++ be 2 (u32 (size - 2)) ++ be 2 (len comps) ++
  flat_map (fun c => be 1 (Z.lor (u32 (Z.shiftl (snd c) 7)) (u32 (fst c - 1)))) comps.
(** j2k.rs:4823-4860 [opj_j2k_write_mct_data_group] *)
Fixpoint write_mccs (t : cmt) (l : list crec) : option bytes :=
  match l with
  | [] => Some []
  | c :: l => match write_mcc t c, write_mccs t l with Some b, Some l => Some (b ++ l) | _, _ => None end
  end.
Definition write_group (t : cmt) (comps : list (Z * Z)) : option bytes :=
  if (length (mcts t) <? nmct t)%nat || (length (mccs t) <? nmcc t)%nat then None else
  match write_mccs t (firstn (nmcc t) (mccs t)) with
  | None => None
  | Some l => Some (write_cbd comps ++ flat_map write_mct (firstn (nmct t) (mcts t)) ++ l ++ write_mco t)
  end.
(** The tile parameters of an encoder before the set-up (zeroed memory, j2k.rs:7413-7490). *)
Definition encoder (m : option (list Z)) (dc : list Z) : cmt := Cmt 0 [] 0 0 [] 0 0 m dc.
