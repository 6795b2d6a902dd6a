(** High-throughput code-blocks (ht_dec.rs): the readers of the four bit-streams
    of a block, which take out stuffed bits, and the decoding of MEL events and of
    the u values.

    [None] is a read outside the block's bytes or a failed [assert!]. Pointers are
    positions in the bytes [buf] of the block; [base] is the address of the first
    byte, of which only the lowest two bits matter. Machine words are as wide as
    in the source, and shifts drop what leaves them. [OPJ_BOOL] is [bool]. *)

From Coq Require Import ZArith List Bool.
From Verif Require Import Ints.
Import ListNotations.
Local Open Scope Z_scope.

Definition byte_at (buf : list Z) (i : Z) : option Z := if i <? 0 then None else nth_error buf (Z.to_nat i).
Definition one (b : bool) : Z := if b then 1 else 0.
Definition shl32 (x n : Z) : Z := u32 (Z.shiftl x n).
Definition shl64 (x n : Z) : Z := u64 (Z.shiftl x n).
Definition not32 (x : Z) : Z := 4294967295 - x.

(** ht_dec.rs:155-165 on a little endian machine; also needs an address that is a multiple of four, see C72. *)
Definition read_le_uint32 (buf : list Z) (i : Z) : option Z :=
  match byte_at buf i, byte_at buf (i + 1), byte_at buf (i + 2), byte_at buf (i + 3) with
  | Some a, Some b, Some c, Some d => Some (Z.lor a (Z.lor (Z.shiftl b 8) (Z.lor (Z.shiftl c 16) (Z.shiftl d 24))))
  | _, _, _, _ => None
  end.
(** The byte of [val] at bit [i]: [val >> i & 0xFF]. *)
Definition lane (val i : Z) : Z := Z.land (Z.shiftr val i) 255.
(** [val & !(0xFF << i) | v << i]. *)
Definition put (val i v : Z) : Z := Z.lor (Z.land val (not32 (shl32 255 i))) (shl32 v i).

(** ** Forward: MagSgn and SPP *)

(** ht_dec.rs:63-70 [frwd_struct]. *)
Record frwd := mkFrwd { f_data : Z; f_tmp : Z; f_bits : Z; f_unstuff : bool; f_size : Z; f_X : Z }.

(** ht_dec.rs:1002-1010, 201-209: the last [n] bytes, put in at bit [i] and up. *)
Fixpoint put_up (buf : list Z) (n : nat) (data i val : Z) : option Z :=
  match n with
  | O => Some val
  | S n => match byte_at buf data with Some v => put_up buf n (data + 1) (i + 8) (put val i v) | None => None end
  end.
(** ht_dec.rs:989-1017: the four bytes, data pointer and size after that. *)
Definition frwd_val (buf : list Z) (f : frwd) : option (Z * Z * Z) :=
  let fill := if negb (f_X f =? 0) then 4294967295 else 0 in
  if 3 <? f_size f then match read_le_uint32 buf (f_data f) with Some v => Some (v, f_data f + 4, f_size f - 4) | None => None end
  else if 0 <? f_size f then match put_up buf (Z.to_nat (f_size f)) (f_data f) 0 fill with Some v => Some (v, f_data f + f_size f, 0) | None => None end
  else Some (fill, f_data f, f_size f).
(** ht_dec.rs:983-1045. *)
Definition frwd_read (buf : list Z) (f : frwd) : option frwd :=
  if 32 <? f_bits f then None
  else
    match frwd_val buf f with
    | None => None
    | Some (val, data, size) =>
        let bits := 8 - one (f_unstuff f) in
        let t := lane val 0 in
        let u := lane val 0 =? 255 in
        let t := Z.lor t (shl32 (lane val 8) bits) in
        let bits := bits + (8 - one u) in
        let u := lane val 8 =? 255 in
        let t := Z.lor t (shl32 (lane val 16) bits) in
        let bits := bits + (8 - one u) in
        let u := lane val 16 =? 255 in
        let t := Z.lor t (shl32 (lane val 24) bits) in
        let bits := bits + (8 - one u) in
        Some (mkFrwd data (Z.lor (f_tmp f) (shl64 t (f_bits f))) (u32 (f_bits f + bits)) (lane val 24 =? 255) size (f_X f))
    end.
(** ht_dec.rs:1076-1094: [n] bytes one by one. *)
Fixpoint frwd_start (buf : list Z) (n : nat) (f : frwd) : option frwd :=
  match n with
  | O => Some f
  | S n =>
      match (if 0 <? f_size f then byte_at buf (f_data f) else Some (f_X f)) with
      | None => None
      | Some d =>
          frwd_start buf n (mkFrwd (if 0 <? f_size f then f_data f + 1 else f_data f) (Z.lor (f_tmp f) (shl64 d (f_bits f)))
                              (u32 (f_bits f + (8 - one (f_unstuff f)))) (Z.land d 255 =? 255) (f_size f - 1) (f_X f))
      end
  end.
(** ht_dec.rs:1055-1100. *)
Definition frwd_init (base : Z) (buf : list Z) (data size X : Z) : option frwd :=
  if (X =? 0) || (X =? 255) then
    match frwd_start buf (Z.to_nat (4 - (base + data) mod 4)) (mkFrwd data 0 0 false size X) with
    | Some f => frwd_read buf f
    | None => None
    end
  else None.
(** ht_dec.rs:1107-1111. *)
Definition frwd_advance (f : frwd) (n : Z) : option frwd :=
  if f_bits f <? n then None else Some (mkFrwd (f_data f) (Z.shiftr (f_tmp f) n) (f_bits f - n) (f_unstuff f) (f_size f) (f_X f)).
(** ht_dec.rs:1117-1126: the word, and the reader after that. *)
Definition frwd_fetch (buf : list Z) (f : frwd) : option (Z * frwd) :=
  match (if f_bits f <? 32 then
           match frwd_read buf f with
           | None => None
           | Some f => if f_bits f <? 32 then frwd_read buf f else Some f
           end
         else Some f) with
  | None => None
  | Some f => Some (u32 (f_tmp f), f)
  end.

(** ** Backward: VLC and MRP *)

(** ht_dec.rs:39-45 [rev_struct]. *)
Record rev_st := mkRev { v_data : Z; v_tmp : Z; v_bits : Z; v_size : Z; v_unstuff : bool }.

(** ht_dec.rs:428-436, 610-618: the last [n] bytes, put in at bit [i] and down. *)
Fixpoint put_down (buf : list Z) (n : nat) (data i val : Z) : option Z :=
  match n with
  | O => Some val
  | S n => match byte_at buf data with Some v => put_down buf n (data - 1) (i - 8) (Z.lor val (shl32 v i)) | None => None end
  end.
Definition rev_val (buf : list Z) (v : rev_st) : option (Z * Z * Z) :=
  if 3 <? v_size v then match read_le_uint32 buf (v_data v - 3) with Some x => Some (x, v_data v - 4, v_size v - 4) | None => None end
  else if 0 <? v_size v then match put_down buf (Z.to_nat (v_size v)) (v_data v) 24 0 with Some x => Some (x, v_data v - v_size v, 0) | None => None end
  else Some (0, v_data v, v_size v).
(** Whether a bit of byte [d] is stuffed, ht_dec.rs:441-445 and the like: *)
Definition stuffed (u : bool) (d : Z) : bool := u && (Z.land d 127 =? 127).
(** ht_dec.rs:406-479 [rev_read] and 592-661 [rev_read_mrp], which are the same. *)
Definition rev_read (buf : list Z) (v : rev_st) : option rev_st :=
  if 32 <? v_bits v then Some v
  else
    match rev_val buf v with
    | None => None
    | Some (val, data, size) =>
        let tmp := Z.shiftr val 24 in
        let bits := 8 - one (stuffed (v_unstuff v) (Z.shiftr val 24)) in
        let u := 143 <? Z.shiftr val 24 in
        let tmp := Z.lor tmp (shl32 (lane val 16) bits) in
        let bits := bits + (8 - one (stuffed u (Z.shiftr val 16))) in
        let u := 143 <? lane val 16 in
        let tmp := Z.lor tmp (shl32 (lane val 8) bits) in
        let bits := bits + (8 - one (stuffed u (Z.shiftr val 8))) in
        let u := 143 <? lane val 8 in
        let tmp := Z.lor tmp (shl32 (lane val 0) bits) in
        let bits := bits + (8 - one (stuffed u val)) in
        Some (mkRev data (Z.lor (v_tmp v) (shl64 tmp (v_bits v))) (u32 (v_bits v + bits)) size (143 <? lane val 0))
    end.
(** ht_dec.rs:525-542: [n] bytes one by one. *)
Fixpoint rev_start (buf : list Z) (n : nat) (v : rev_st) : option rev_st :=
  match n with
  | O => Some v
  | S n =>
      match byte_at buf (v_data v) with
      | None => None
      | Some d => rev_start buf n (mkRev (v_data v - 1) (Z.lor (v_tmp v) (shl64 d (v_bits v))) (u32 (v_bits v + (8 - one (stuffed (v_unstuff v) d)))) (v_size v) (143 <? d))
      end
  end.
(** ht_dec.rs:494-548. *)
Definition rev_init (base : Z) (buf : list Z) (lcup scup : Z) : option rev_st :=
  match byte_at buf (lcup - 2) with
  | None => None
  | Some d =>
      let tmp := Z.shiftr d 4 in
      let v := mkRev (lcup - 3) tmp (4 - one (Z.land tmp 7 =? 7)) (scup - 2) (143 <? Z.lor d 15) in
      let num := 1 + (base + v_data v) mod 4 in
      let tnum := if num <? v_size v then num else v_size v in
      match rev_start buf (Z.to_nat tnum) v with
      | None => None
      | Some v => rev_read buf (mkRev (v_data v) (v_tmp v) (v_bits v) (v_size v - tnum) (v_unstuff v))
      end
  end.
(** ht_dec.rs:693-716: [n] bytes one by one, zeros after the last. *)
Fixpoint mrp_start (buf : list Z) (n : nat) (v : rev_st) : option rev_st :=
  match n with
  | O => Some v
  | S n =>
      match (if 0 <? v_size v then byte_at buf (v_data v) else Some 0) with
      | None => None
      | Some d =>
          mrp_start buf n (mkRev (if 0 <? v_size v then v_data v - 1 else v_data v) (Z.lor (v_tmp v) (shl64 d (v_bits v)))
                             (u32 (v_bits v + (8 - one (stuffed (v_unstuff v) d)))) (v_size v - 1) (143 <? d))
      end
  end.
(** ht_dec.rs:675-718. *)
Definition rev_init_mrp (base : Z) (buf : list Z) (lcup len2 : Z) : option rev_st :=
  match mrp_start buf (Z.to_nat (1 + (base + (lcup + len2 - 1)) mod 4)) (mkRev (lcup + len2 - 1) 0 0 len2 true) with
  | None => None
  | Some v => rev_read buf v
  end.
(** ht_dec.rs:556-568 [rev_fetch] and 729-741 [rev_fetch_mrp]. *)
Definition rev_fetch (buf : list Z) (v : rev_st) : option (Z * rev_st) :=
  match (if v_bits v <? 32 then
           match rev_read buf v with
           | None => None
           | Some v => if v_bits v <? 32 then rev_read buf v else Some v
           end
         else Some v) with
  | None => None
  | Some v => Some (u32 (v_tmp v), v)
  end.
(** ht_dec.rs:575-580 [rev_advance] and 748-754 [rev_advance_mrp]. *)
Definition rev_advance (v : rev_st) (n : Z) : option (Z * rev_st) :=
  if v_bits v <? n then None
  else let w := mkRev (v_data v) (Z.shiftr (v_tmp v) n) (v_bits v - n) (v_size v) (v_unstuff v) in Some (u32 (v_tmp w), w).

(** ** MEL *)

(** ht_dec.rs:19-28 [dec_mel]. *)
Record mel := mkMel { m_data : Z; m_tmp : Z; m_bits : Z; m_size : Z; m_unstuff : bool; m_k : Z; m_num : Z; m_runs : Z }.

(** ht_dec.rs:189-218: four bytes, data pointer and size after that. *)
Definition mel_val (buf : list Z) (m : mel) : option (Z * Z * Z) :=
  if 4 <? m_size m then match read_le_uint32 buf (m_data m) with Some v => Some (v, m_data m + 4, m_size m - 4) | None => None end
  else if 0 <? m_size m then
    match put_up buf (Z.to_nat (m_size m - 1)) (m_data m) 0 4294967295, byte_at buf (m_data m + (m_size m - 1)) with
    | Some val, Some v => Some (put val (8 * (m_size m - 1)) (Z.lor v 15), m_data m + m_size m, 0)
    | _, _ => None
    end
  else Some (4294967295, m_data m, m_size m).
(** ht_dec.rs:179-245. *)
Definition mel_read (buf : list Z) (m : mel) : option mel :=
  if 32 <? m_bits m then Some m
  else
    match mel_val buf m with
    | None => None
    | Some (val, data, size) =>
        let bits := 32 - one (m_unstuff m) in
        let t := lane val 0 in
        let u := lane val 0 =? 255 in
        let bits := bits - one u in
        let t := Z.lor (shl32 t (8 - one u)) (lane val 8) in
        let u := lane val 8 =? 255 in
        let bits := bits - one u in
        let t := Z.lor (shl32 t (8 - one u)) (lane val 16) in
        let u := lane val 16 =? 255 in
        let bits := bits - one u in
        let t := Z.lor (shl32 t (8 - one u)) (lane val 24) in
        Some (mkMel data (Z.lor (m_tmp m) (shl64 t (64 - bits - m_bits m))) (m_bits m + bits) size (lane val 24 =? 255) (m_k m) (m_num m) (m_runs m))
    end.
(** ht_dec.rs:262. *)
Definition mel_exp : list Z := [0; 0; 0; 1; 1; 1; 2; 2; 2; 3; 3; 4; 5].
(** ht_dec.rs:271-305: the loop; at most [n] rounds (each fills a place in the
    store, which has eight). *)
Fixpoint mel_loop (n : nat) (m : mel) : option mel :=
  match n with
  | O => Some m
  | S n =>
      if (6 <=? m_bits m) && (m_num m <? 8) then
        match nth_error mel_exp (Z.to_nat (m_k m)) with
        | None => None
        | Some e =>
            let '(run, k, tmp, bits) :=
              if negb (Z.land (m_tmp m) (shl64 1 63) =? 0)
              then (Z.shiftl (Z.shiftl 1 e - 1) 1, if m_k m + 1 <? 12 then m_k m + 1 else 12, shl64 (m_tmp m) 1, m_bits m - 1)
              else (Z.shiftl (Z.land (Z.shiftr (m_tmp m) (63 - e)) (Z.shiftl 1 e - 1)) 1 + 1, if 0 <? m_k m - 1 then m_k m - 1 else 0,
                    shl64 (m_tmp m) (e + 1), m_bits m - (e + 1)) in
            let at_ := m_num m * 7 in
            mel_loop n (mkMel (m_data m) tmp bits (m_size m) (m_unstuff m) k (m_num m + 1)
                          (Z.lor (Z.land (m_runs m) (18446744073709551615 - shl64 63 at_)) (shl64 run at_)))
        end
      else Some m
  end.
(** ht_dec.rs:261-306. *)
Definition mel_decode (buf : list Z) (m : mel) : option mel :=
  match (if m_bits m <? 6 then mel_read buf m else Some m) with
  | Some m => mel_loop 8 m
  | None => None
  end.
(** ht_dec.rs:336-363: [n] bytes one by one; [Some None]: refused. *)
Fixpoint mel_start (buf : list Z) (n : nat) (m : mel) : option (option mel) :=
  match n with
  | O => Some (Some m)
  | S n =>
      match (if m_unstuff m then byte_at buf (m_data m) else Some 0) with
      | None => None
      | Some x =>
          if 143 <? x then Some None
          else
            match (if 0 <? m_size m then byte_at buf (m_data m) else Some 255) with
            | None => None
            | Some d =>
                let d := if m_size m =? 1 then Z.lor d 15 else d in
                let d_bits := 8 - one (m_unstuff m) in
                mel_start buf n (mkMel (if 0 <? m_size m then m_data m + 1 else m_data m) (Z.lor (shl64 (m_tmp m) d_bits) d) (m_bits m + d_bits)
                                   (m_size m - 1) (Z.land d 255 =? 255) (m_k m) (m_num m) (m_runs m))
            end
      end
  end.
(** ht_dec.rs:316-368. *)
Definition mel_init (base : Z) (buf : list Z) (lcup scup : Z) : option (option mel) :=
  let data := lcup - scup in
  match mel_start buf (Z.to_nat (4 - (base + data) mod 4)) (mkMel data 0 0 (scup - 1) false 0 0 0) with
  | Some (Some m) => Some (Some (mkMel (m_data m) (shl64 (m_tmp m) (64 - m_bits m)) (m_bits m) (m_size m) (m_unstuff m) (m_k m) (m_num m) (m_runs m)))
  | r => r
  end.
(** ht_dec.rs:374-385: the run, and the reader after that. *)
Definition mel_get_run (buf : list Z) (m : mel) : option (Z * mel) :=
  match (if m_num m =? 0 then mel_decode buf m else Some m) with
  | None => None
  | Some m => Some (Z.land (m_runs m) 127, mkMel (m_data m) (m_tmp m) (m_bits m) (m_size m) (m_unstuff m) (m_k m) (m_num m - 1) (Z.shiftr (m_runs m) 7))
  end.
(** How the block decoder takes an event, ht_dec.rs:1522-1531 (also 1562-1569,
    1601-1612, and for the other lines 1825-1829, 1854-1858): the event, [run] and the reader. *)
Definition mel_event (buf : list Z) (run : Z) (m : mel) : option (bool * Z * mel) :=
  let run := run - 2 in
  let e := run =? -1 in
  if run <? 0 then match mel_get_run buf m with Some (r, m) => Some (e, r, m) | None => None end else Some (e, run, m).

(** ** u values *)

(** ht_dec.rs:777-786, 902-911; the two tables are the same. *)
Definition uvlc_dec : list Z := [183; 33; 66; 33; 103; 33; 66; 33].
Definition look_dec (vlc : Z) : Z := nth (Z.to_nat (Z.land vlc 7)) uvlc_dec 0.
Definition pre_len (d : Z) : Z := Z.land d 3.
Definition suf_len (d : Z) : Z := Z.land (Z.shiftr d 2) 7.
(** [(d >> 5) + (vlc & ((1 << suffix_len) - 1))]. *)
Definition u_value (d vlc len : Z) : Z := u32 (Z.shiftr d 5 + Z.land vlc (Z.shiftl 1 len - 1)).
(** ht_dec.rs:788-814, 913-939: at most one of the two [u_off] is set. *)
Definition one_uvlc (vlc mode : Z) : Z * (Z * Z) :=
  if mode =? 0 then (0, (1, 1))
  else
    let d := look_dec vlc in
    let vlc := Z.shiftr vlc (pre_len d) in
    let u := u_value d vlc (suf_len d) in
    (pre_len d + suf_len d, if mode =? 1 then (u32 (u + 1), 1) else (1, u32 (u + 1))).
(** ht_dec.rs:855-879 ([k] = 3), 829-854 and 939-963 ([k] = 1): both are set; prefixes first. *)
Definition both_uvlc (vlc k : Z) : Z * (Z * Z) :=
  let d1 := look_dec vlc in
  let vlc := Z.shiftr vlc (pre_len d1) in
  let d2 := look_dec vlc in
  let vlc := Z.shiftr vlc (pre_len d2) in
  let u1 := u_value d1 vlc (suf_len d1) in
  let vlc := Z.shiftr vlc (suf_len d1) in
  let u2 := u_value d2 vlc (suf_len d2) in
  (pre_len d1 + pre_len d2 + suf_len d1 + suf_len d2, (u32 (u1 + k), u32 (u2 + k))).
(** ht_dec.rs:766-881: bits used, and the two values. *)
Definition decode_init_uvlc (vlc mode : Z) : Z * (Z * Z) :=
  if mode <=? 2 then one_uvlc vlc mode
  else if mode =? 3 then
    let d1 := look_dec vlc in
    if 2 <? pre_len d1 then
      let vlc := Z.shiftr vlc (pre_len d1) in
      let u2 := u32 (u32 (Z.land vlc 1 + 1) + 1) in
      let vlc := Z.shiftr vlc 1 in
      (pre_len d1 + 1 + suf_len d1, (u32 (u_value d1 vlc (suf_len d1) + 1), u2))
    else both_uvlc vlc 1
  else both_uvlc vlc 3.
(** ht_dec.rs:891-965. *)
Definition decode_noninit_uvlc (vlc mode : Z) : Z * (Z * Z) := if mode <=? 2 then one_uvlc vlc mode else both_uvlc vlc 1.
