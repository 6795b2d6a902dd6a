(** Model of the packet length markers (openjp2-rs/src/j2k.rs): how many bytes are
    set aside for them, how the encoder writes them and puts them in front of the
    data of a tile-part, and how the decoder checks them. *)

From Coq Require Import ZArith List Bool.
From Verif Require Import Ints CioModel HdrModel.
Import ListNotations.
Local Open Scope Z_scope.

(** ** Room *)

(** pi.rs:2142-2180 [opj_get_encoding_packet_count] *)
Definition packet_count (layers prec comps res : Z) : Z := u32 (u32 (u32 (layers * prec) * comps) * res).
(** j2k.rs:2617-2652: [count] is the largest such count over the tiles, [hdr] what
    the other marker segments of a tile-part header may take (j2k.rs:2596-2616). *)
Definition reserved (hdr count : Z) : Z :=
  u32 (u32 (u32 (6 * ((count + 16382 - 1) / 16382)) + u32 (hdr + u32 (5 * count))) + 1).

(** ** Writing *)

(** j2k.rs:4034-4046: the groups of seven bits of a packet's size, low ones first;
    all but the first marked.  [None]: beyond the end of [var_bytes] (a panic). *)
Fixpoint groups (room : nat) (n : Z) : option (list Z) :=
  if n >? 0 then
    match room with
    | O => None
    | S room => match groups room (n / 128) with None => None | Some l => Some ((n mod 128 + 128) :: l) end
    end
  else Some [].
Definition var_bytes (n : Z) : option (list Z) :=
  match groups 4 (n / 128) with None => None | Some l => Some (n mod 128 :: l) end.

(** cio.rs [opj_write_bytes] of two bytes at a place already behind us. *)
Definition patch (at_ : nat) (v : Z) (buf : list Z) : list Z := firstn at_ buf ++ be 2 v ++ skipn (at_ + 2) buf.

(** j2k.rs:4020-4024: [buf] is what lies between [p_data_start] and [p_data]. *)
Record plt := mkPlt { p_buf : list Z; p_at : nat; p_z : Z; p_len : Z }.
Inductive wrote :=
| All (buf : list Z)
| TooMany (buf : list Z) (* returns false *)
| Panic.
(** j2k.rs:4024-4031, 4059-4069: a new segment; its length is filled in later (what
    stands there until then does not matter). *)
Definition open_segment (buf : list Z) (z : Z) : plt :=
  mkPlt (buf ++ be 2 PLT ++ [0; 0] ++ be 1 z) (length buf + 2) z 3.
(** j2k.rs:4032-4086 *)
Fixpoint write_lengths (sizes : list Z) (s : plt) : wrote :=
  match sizes with
  | [] => All (patch (p_at s) (p_len s) (p_buf s))
  | n :: sizes =>
      match var_bytes n with
      | None => Panic
      | Some v =>
          let k := Z.of_nat (length v) in
          let put (s : plt) := mkPlt (p_buf s ++ rev v) (p_at s) (p_z s) ((p_len s + k) mod 65536) in
          if p_len s + k >? 65535 then
            if p_z s =? 255 then TooMany (p_buf s)
            else write_lengths sizes (put (open_segment (patch (p_at s) (p_len s) (p_buf s)) ((p_z s + 1) mod 256)))
          else write_lengths sizes (put s)
      end
  end.
(** j2k.rs:4012-4088 [opj_j2k_write_plt_in_memory] *)
Definition write_plt (sizes : list Z) : wrote := write_lengths sizes (open_segment [] 0).

(** j2k.rs:4101-4239 [opj_j2k_write_sod]: [encode] is the tile coder with the room
    it is given; it delivers the data and the size of each packet in them. *)
Inductive sod :=
| Sod (bytes : list Z)
| Refused (* returns false *)
| Overrun (* more is written to the PLT buffer than was allocated *)
| Stopped (* a panic *).
Definition write_sod (with_plt : bool) (res total : Z) (encode : Z -> option (list Z * list Z)) : sod :=
  if total <? 4 then Refused
  else if total - 4 <? res then Refused
  else match encode (total - 4 - res) with
       | None => Refused
       | Some (data, sizes) =>
           if negb with_plt then Sod (be 2 SOD ++ data)
           else match write_plt sizes with
                | Panic => Stopped
                | TooMany buf => if Z.of_nat (length buf) <=? res then Refused else Overrun
                | All buf => if Z.of_nat (length buf) <=? res then Sod (buf ++ be 2 SOD ++ data) else Overrun
                end
       end.

(** ** Reading *)

(** j2k.rs:2962-2975: the length of the packet so far *)
Fixpoint scan (b : list Z) (l : Z) : Z :=
  match b with
  | [] => l
  | x :: b =>
      let l := Z.lor l (Z.land x 127) in
      scan b (if Z.land x 128 =? 0 then 0 else u32 (Z.shiftl l 7))
  end.
(** j2k.rs:2940-2982 [opj_j2k_read_plt] *)
Definition read_plt (b : list Z) : bool :=
  match b with
  | [] => false
  | _ :: b => scan b 0 =? 0
  end.
