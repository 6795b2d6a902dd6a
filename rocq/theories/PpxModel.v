(** Model of packed packet headers: reading and merging of PPM and PPT marker
    segments, j2k.rs:2997-3450.  [None]: a write outside the buffer or a failed
    assertion; [Some None]: refused with an error.

    Simplifications: an array of [opj_ppx] is a list, [None] an entry without data
    ([m_data_size] is the length of the data, 0 without); a pointer into the data
    of a segment with the number of bytes left is the list of these bytes; the
    merged buffer is the list of the bytes written so far (they are written in
    order) with its size; allocation fails only for size 0 (malloc.rs:129-135);
    freed memory is not looked at again. *)

From Coq Require Import ZArith List Bool.
From Verif Require Import Ints CioModel.
Import ListNotations.
Local Open Scope Z_scope.

Definition bytes := list Z.
Definition len (l : bytes) : Z := Z.of_nat (length l).

(** j2k.rs:3010-3080 and 3298-3372: one marker segment, from its index on; [l] are the
    markers read before.  [None]: refused. *)
Definition read_ppx (l : list (option bytes)) (seg : bytes) : option (list (option bytes)) :=
  if len seg <? 2 then None
  else
    match seg with
    | [] => None
    | z :: data =>
        let l := if Z.of_nat (length l) <=? z then l ++ repeat None (Z.to_nat (z + 1) - length l) else l in
        match nth (Z.to_nat z) l None with
        | Some _ => None
        | None => Some (firstn (Z.to_nat z) l ++ Some data :: skipn (S (Z.to_nat z)) l)
        end
    end.
(** A sequence of them. *)
Fixpoint read_all (l : list (option bytes)) (segs : list bytes) : option (list (option bytes)) :=
  match segs with [] => Some l | s :: segs => match read_ppx l s with Some l => read_all l segs | None => None end end.

(** j2k.rs:3128-3158: the loop over a segment in the first pass; [total] is
    [l_ppm_data_size], the result also holds [l_N_ppm_remaining]. *)
Fixpoint sizes (fuel : nat) (d : bytes) (total : Z) : option (Z * Z) :=
  match fuel with
  | O => None
  | S fuel =>
      if len d <? 4 then None
      else
        match read_bytes d 0 4 with
        | None => None
        | Some n =>
            let d := skipn 4 d in
            if 4294967295 - n <? total then None
            else
              let total := total + n in
              if n <=? len d then
                let d := skipn (Z.to_nat n) d in
                if len d =? 0 then Some (total, 0) else sizes fuel d total
              else Some (total, u32 (n - len d))
        end
  end.
(** j2k.rs:3106-3162: [r] is [l_N_ppm_remaining]. *)
Fixpoint pass1 (l : list (option bytes)) (total r : Z) : option (Z * Z) :=
  match l with
  | [] => Some (total, r)
  | None :: l => pass1 l total r
  | Some d :: l =>
      if len d <=? r then pass1 l total (u32 (r - len d))
      else
        let d := skipn (Z.to_nat r) d in
        if 0 <? len d then match sizes (length d) d total with Some (total, r) => pass1 l total r | None => None end
        else pass1 l total 0
  end.

(** [memcpy] of [n] bytes of [d] to the end of what is written. *)
Definition copy (size : Z) (out d : bytes) (n : Z) : option bytes :=
  if (len out + n <=? size) && (n <=? len d) then Some (out ++ firstn (Z.to_nat n) d) else None.
(** j2k.rs:3212-3253. *)
Fixpoint pieces (fuel : nat) (size : Z) (d out : bytes) : option (option (bytes * Z)) :=
  match fuel with
  | O => None
  | S fuel =>
      if len d <? 4 then Some None
      else
        match read_bytes d 0 4 with
        | None => None
        | Some n =>
            let d := skipn 4 d in
            if n <=? len d then
              match copy size out d n with
              | None => None
              | Some out => let d := skipn (Z.to_nat n) d in if len d =? 0 then Some (Some (out, 0)) else pieces fuel size d out
              end
            else match copy size out d (len d) with None => None | Some out => Some (Some (out, u32 (n - len d))) end
        end
  end.
(** j2k.rs:3177-3262. *)
Fixpoint pass2 (l : list (option bytes)) (size : Z) (out : bytes) (r : Z) : option (option bytes) :=
  match l with
  | [] => Some (Some out)
  | None :: l => pass2 l size out r
  | Some d :: l =>
      if len d <=? r then match copy size out d (len d) with Some out => pass2 l size out (u32 (r - len d)) | None => None end
      else
        match copy size out d r with
        | None => None
        | Some out =>
            let d := skipn (Z.to_nat r) d in
            if 0 <? len d then
              match pieces (length d) size d out with Some (Some (out, r)) => pass2 l size out r | Some None => Some None | None => None end
            else pass2 l size out 0
        end
  end.
(** j2k.rs:3092-3270, [ppm] being set: the merged packet headers. *)
Definition merge_ppm (l : list (option bytes)) : option (option bytes) :=
  match pass1 l 0 0 with
  | None => Some None
  | Some (total, r) =>
      if negb (r =? 0) then Some None
      else if total =? 0 then Some None
      else pass2 l total [] 0
  end.

(** j2k.rs:3404-3445. *)
Fixpoint ppt_size (l : list (option bytes)) : Z := match l with [] => 0 | Some d :: l => u32 (len d + ppt_size l) | None :: l => ppt_size l end.
Fixpoint ppt_copy (l : list (option bytes)) (size : Z) (out : bytes) : option bytes :=
  match l with
  | [] => Some out
  | None :: l => ppt_copy l size out
  | Some d :: l => match copy size out d (len d) with Some out => ppt_copy l size out | None => None end
  end.
(** j2k.rs:3386-3450: [merged] tells whether there is a buffer already, [ppt]
    whether a segment has been read. *)
Definition merge_ppt (merged ppt : bool) (l : list (option bytes)) : option (option bytes) :=
  if merged then Some None
  else if negb ppt then Some (Some [])
  else
    let size := ppt_size l in
    if size =? 0 then Some None
    else match ppt_copy l size [] with Some b => Some (Some b) | None => None end.
