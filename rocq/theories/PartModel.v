(** Model of the tile-parts of a code-stream (openjp2-rs/src/j2k.rs): how the
    encoder frames them, and how the decoder finds them, collects the data of
    each tile and decides when a tile is complete.

    The handlers of the marker segments in tile-part headers and the decoding of
    a tile from its data are parameters ([handle], [use]); those of COD, POC and
    so on are in HdrModel, the decoder of a tile in SampleModel.  The stream is
    that of StreamModel without the sizes of the single reads, on which nothing
    depends (C33).  Not modelled: the code-stream index, failing allocations,
    decoding of a single tile by number ([m_tile_ind_to_dec] is -1). *)

From Coq Require Import ZArith List Bool.
From Verif Require Import Ints CioModel HdrModel.
Import ListNotations.
Local Open Scope Z_scope.

(** ** Writing *)

(** j2k.rs:12655-12734 [opj_j2k_write_first_tile_part], 12736-12912
    [opj_j2k_write_all_tile_parts], 4101-4245 [opj_j2k_write_sod]: SOT, marker
    segments ([heads]: POC in the first tile-part, PLT), SOD, packets.  The
    length of the whole is filled in at the end. *)
Definition write_part (tile part parts : Z) (heads data : list Z) : list Z :=
  write_sot tile (u32 (Z.of_nat (14 + length heads + length data))) part parts ++ heads ++ be 2 SOD ++ data.

(** j2k.rs:12520-12568 [opj_j2k_post_write_tile]: the tile-parts of a tile, each
    with its heads and its data; their number is written in every one of them
    (j2k.rs:980, 3583). *)
Fixpoint write_tile_from (tile parts : Z) (k : Z) (ps : list (list Z * list Z)) : list Z :=
  match ps with
  | [] => []
  | (heads, data) :: ps => write_part tile k parts heads data ++ write_tile_from tile parts (k + 1) ps
  end.
Definition write_tile (tile : Z) (ps : list (list Z * list Z)) : list Z :=
  write_tile_from tile (Z.of_nat (length ps)) 0 ps.

(** j2k.rs:12167-12270 [opj_j2k_encode], 4486 [opj_j2k_write_eoc]: the tiles one
    after the other, then EOC. *)
Fixpoint write_tiles (tile : Z) (ts : list (list (list Z * list Z))) : list Z :=
  match ts with
  | [] => be 2 EOC
  | ps :: ts => write_tile tile ps ++ write_tiles (tile + 1) ts
  end.

(** ** Reading *)

Inductive outcome (A : Type) :=
| Done (a : A)
| Fail (* the call returns false *)
| Bad (* memory outside of an allocation is touched *)
| Fuel (* the model's bound on the number of steps is exceeded *).
Arguments Done {A}. Arguments Fail {A}. Arguments Bad {A}. Arguments Fuel {A}.

(** types.rs:229-233: bytes, position in them, [m_byte_offset]. *)
Record stream := mkS { s_src : list Z; s_pos : Z; s_off : Z }.
Definition rest (s : stream) : list Z := skipn (Z.to_nat (s_pos s)) (s_src s).
Definition size_of (s : stream) : Z := Z.of_nat (length (s_src s)).
(** stream.rs:392-403, without the panic (the offset never exceeds the length) *)
Definition left (s : stream) : Z := size_of s - s_off s.
(** stream.rs:344-365: a read beyond the end delivers nothing, and the offset
    then does not count what was lost (C33). *)
Definition take (n : Z) (s : stream) : option (list Z) * stream :=
  if n <=? Z.of_nat (length (rest s))
  then (Some (firstn (Z.to_nat n) (rest s)), mkS (s_src s) (s_pos s + n) (s_off s + n))
  else (None, mkS (s_src s) (Z.max (s_pos s) (size_of s)) (s_off s)).
(** stream.rs:405-433 *)
Definition skip (n : Z) (s : stream) : option stream :=
  if (0 <? size_of s) && (size_of s <? s_off s + n) then None
  else Some (mkS (s_src s) (s_pos s + n) (s_off s + n)).
(** stream.rs:435-448 *)
Definition seek (off : Z) (s : stream) : stream := mkS (s_src s) (s_pos s + (off - s_off s)) off.

(** j2k.rs:55-67 *)
Definition st_TPHSOT := 8. Definition st_TPH := 16. Definition st_NEOC := 64.
Definition st_DATA := 128. Definition st_EOC := 256.

(** j2k.rs:357-383 [J2KMarker::states] *)
Definition states (m : Z) : Z :=
  if m =? SOT then 12
  else if m =? SIZ then 2
  else if existsb (Z.eqb m) [TLM; PLM; PPM; CRG; CBD; CAP; CPF] then 4
  else if existsb (Z.eqb m) [PLT; PPT] then 16
  else if m =? SOP then 0
  else 20.

(** j2k.rs:391-412: the markers with a handler, without SOT *)
Definition handled (m : Z) : bool :=
  existsb (Z.eqb m) [COD; COC; RGN; QCD; QCC; POC; SIZ; TLM; PLM; PLT; PPM; PPT; CRG; COM; MCT; CBD; CAP; CPF; MCC; MCO].

(** What the decoder keeps of a tile (types.rs [opj_tcp]): number of the last
    tile-part, of tile-parts (0: not known), size of the allocation [m_data]
    ([None]: null), the bytes read into it, [m_data_size]; coding parameters. *)
Record tcp (C : Type) := mkTcp { t_part : Z; t_parts : Z; t_buf : option Z; t_bytes : list Z; t_size : Z; t_par : C }.
Arguments mkTcp {C}. Arguments t_part {C}. Arguments t_parts {C}. Arguments t_buf {C}. Arguments t_bytes {C}.
Arguments t_size {C}. Arguments t_par {C}.

(** types.rs [opj_j2k_dec]: state, [m_current_tile_number], [m_can_decode],
    [m_last_tile_part], [m_sot_length], [m_skip_data],
    [m_nb_tile_parts_correction_checked], [m_nb_tile_parts_correction], tiles. *)
Record dec (C : Type) := mkDec {
  d_state : Z; d_cur : Z; d_can : bool; d_last : bool; d_len : Z; d_skip : bool; d_checked : bool; d_corr : bool;
  d_tcps : Z -> tcp C }.
Arguments mkDec {C}. Arguments d_state {C}. Arguments d_cur {C}. Arguments d_can {C}. Arguments d_last {C}.
Arguments d_len {C}. Arguments d_skip {C}. Arguments d_checked {C}. Arguments d_corr {C}. Arguments d_tcps {C}.

(** j2k.rs:9305-9327: the first tile of [n], from [i], with [f]; else [i + n]. *)
Fixpoint find (f : Z -> bool) (n : nat) (i : Z) : Z :=
  match n with
  | O => i
  | S n => if f i then i else find f n (i + 1)
  end.

Section Reading.
Context {C R : Type}.
Variable handle : Z -> Z -> C -> list Z -> option C. (* marker, tile, parameters, segment *)
Variable use : Z -> C -> list Z -> option R. (* tile, parameters, data *)
Variable nb : Z. (* number of tiles, [tw * th] *)
Variable wanted : Z -> bool. (* the tile is in the area to decode *)
Variable strict : bool. (* j2k.rs:6082, the default *)
Variable seekable : bool.
Variable fails : bool. (* a read at the end of the stream fails (custom streams) rather than deliver no bytes *)

Local Notation tcp := (tcp C).
Local Notation dec := (dec C).

Definition set_state (v : Z) (d : dec) : dec :=
  mkDec v (d_cur d) (d_can d) (d_last d) (d_len d) (d_skip d) (d_checked d) (d_corr d) (d_tcps d).
Definition set_cur (v : Z) (d : dec) : dec :=
  mkDec (d_state d) v (d_can d) (d_last d) (d_len d) (d_skip d) (d_checked d) (d_corr d) (d_tcps d).
Definition set_can (v : bool) (d : dec) : dec :=
  mkDec (d_state d) (d_cur d) v (d_last d) (d_len d) (d_skip d) (d_checked d) (d_corr d) (d_tcps d).
Definition set_len (v : Z) (d : dec) : dec :=
  mkDec (d_state d) (d_cur d) (d_can d) (d_last d) v (d_skip d) (d_checked d) (d_corr d) (d_tcps d).
Definition set_skip (v : bool) (d : dec) : dec :=
  mkDec (d_state d) (d_cur d) (d_can d) (d_last d) (d_len d) v (d_checked d) (d_corr d) (d_tcps d).
Definition set_tcps (v : Z -> tcp) (d : dec) : dec :=
  mkDec (d_state d) (d_cur d) (d_can d) (d_last d) (d_len d) (d_skip d) (d_checked d) (d_corr d) v.
Definition put (i : Z) (t : tcp) (d : dec) : dec := set_tcps (fun j => if j =? i then t else d_tcps d j) d.

(** j2k.rs:3645-4008 [opj_j2k_read_sot] *)
Definition read_sot (b : list Z) (d : dec) : option dec :=
  match get_sot_values b with
  | None => None
  | Some (tile, len, part, parts) =>
      if nb <=? tile then None
      else
        let t := d_tcps d tile in
        if negb (t_part t + 1 =? part) then None
        else if negb (len =? 0) && (len <? 14) && negb (len =? 12) then None
        else if negb (t_parts t =? 0) && (t_parts t <=? part) then None
        else
          let last := d_last d || (len =? 0) in
          let parts := if parts =? 0 then 0 else u32 (parts + (if d_corr d then 1 else 0)) in
          if negb (parts =? 0) && (parts <=? part) then None
          else
            let total := if parts =? 0 then t_parts t else parts in
            let can := d_can d || (negb (total =? 0) && (total =? u32 (part + 1))) in
            Some (mkDec st_TPH tile can last (if last then 0 else u32 (len - 12)) (negb (wanted tile)) (d_checked d) (d_corr d)
                    (fun j => if j =? tile then mkTcp part total (t_buf t) (t_bytes t) (t_size t) (t_par t) else d_tcps d j))
  end.

(** j2k.rs:385-417: in a tile-part header *)
Definition read_head (m : Z) (b : list Z) (d : dec) : option dec :=
  if m =? SOT then read_sot b d
  else if handled m then
    let t := d_tcps d (d_cur d) in
    match handle m (d_cur d) (t_par t) b with
    | None => None
    | Some p => Some (put (d_cur d) (mkTcp (t_part t) (t_parts t) (t_buf t) (t_bytes t) (t_size t) p) d)
    end
  else None.

(** j2k.rs:9073-9265: marker segments up to SOD; [m] is the current marker.  The
    check of the segment's size before the buffer is enlarged (9137-9172) refuses
    only what could not be read anyway. *)
Fixpoint read_heads (fuel : nat) (m : Z) (d : dec) (s : stream) : outcome (Z * dec * stream) :=
  match fuel with
  | O => Fuel
  | S fuel =>
      if m =? SOD then Done (m, d, s)
      else if left s =? 0 then Done (m, set_state st_NEOC d, s)
      else
        match take 2 s with
        | (None, _) => Fail
        | (Some b, s) =>
            let size := from_be b in
            if size <? 2 then Fail
            else if (m =? 32896) && (left s =? 0) then Done (m, set_state st_NEOC d, s)
            else
              let d := if Z.land (d_state d) st_TPH =? 0 then d else set_len (u32 (d_len d - (size + 2))) d in
              if Z.land (d_state d) (states m) =? 0 then Fail
              else
                match take (size - 2) s with
                | (None, _) => Fail
                | (Some b, s) =>
                    match read_head m b d with
                    | None => Fail
                    | Some d =>
                        if d_skip d then
                          match skip (d_len d) s with
                          | None => Fail
                          | Some s => Done (SOD, d, s)
                          end
                        else
                          match take 2 s with
                          | (None, _) => Fail
                          | (Some b, s) => read_heads fuel (from_be b) d s
                          end
                    end
                end
        end
  end.

(** j2k.rs:4247-4425 [opj_j2k_read_sod] *)
Definition read_sod (d : dec) (s : stream) : outcome (dec * stream) :=
  if negb ((0 <=? d_cur d) && (d_cur d <? nb)) then Bad
  else
    let t := d_tcps d (d_cur d) in
    let len := if d_last d then u32 (left s - 2) else if 2 <=? d_len d then u32 (d_len d - 2) else d_len d in
    let d := set_len len d in
    if len =? 0 then Done (set_state st_TPHSOT d, s)
    else if (left s <? len) && strict then Fail
    else if 4294967293 <? len then Fail
    else
      match (match t_buf t with
             | None => Some (u32 (len + 2))
             | Some _ => if u32 (4294967293 - len) <? t_size t then None else Some (u32 (u32 (t_size t + len) + 2))
             end) with
      | None => Fail
      | Some room =>
          if room <? t_size t + len then Bad
          else
            let '(r, s) := take len s in
            match r with
            | Some b =>
                Done (set_state st_TPHSOT (put (d_cur d) (mkTcp (t_part t) (t_parts t) (Some room) (t_bytes t ++ b) (u32 (t_size t + len)) (t_par t)) d), s)
            | None =>
                let n := if fails then 4294967295 else 0 in
                Done (set_state st_NEOC (put (d_cur d) (mkTcp (t_part t) (t_parts t) (Some room) (t_bytes t) (u32 (t_size t + n)) (t_par t)) d), s)
            end
      end.

(** j2k.rs:8926-9049 [opj_j2k_need_nb_tile_parts_correction]: look for a further
    tile-part of the tile whose number is that of the tile-parts. *)
Fixpoint look_ahead (fuel : nat) (tile : Z) (s : stream) : outcome (bool * stream) :=
  match fuel with
  | O => Fuel
  | S fuel =>
      match take 2 s with
      | (None, s) => Done (false, s)
      | (Some b, s) =>
          if negb (from_be b =? SOT) then Done (false, s)
          else
            match take 2 s with
            | (None, _) => Fail
            | (Some b, s) =>
                if negb (from_be b =? 10) then Fail
                else
                  match take 8 s with
                  | (None, _) => Fail
                  | (Some b, s) =>
                      match get_sot_values b with
                      | None => Fail
                      | Some (i, len, part, parts) =>
                          if i =? tile then Done (part =? parts, s)
                          else if len <? 14 then Done (false, s)
                          else
                            match skip (len - 12) s with
                            | None => Done (false, s)
                            | Some s => look_ahead fuel tile s
                            end
                      end
                  end
            end
      end
  end.
Definition need_correction (tile : Z) (s : stream) : outcome (bool * stream) :=
  if negb seekable then Done (false, s)
  else
    match look_ahead (S (length (s_src s))) tile s with
    | Done (b, s') => Done (b, seek (s_off s) s')
    | Fail => Fail
    | Bad => Bad
    | Fuel => Fuel
    end.

(** j2k.rs:9276-9318 *)
Definition check_parts (d : dec) (s : stream) : outcome (dec * stream) :=
  if d_can d && negb (d_checked d) then
    match need_correction (d_cur d) s with
    | Done (b, s) =>
        if b then
          Done (mkDec (d_state d) (d_cur d) false (d_last d) (d_len d) (d_skip d) true true
                  (fun j => let t := d_tcps d j in
                            if (0 <=? j) && (j <? nb) && negb (t_parts t =? 0)
                            then mkTcp (t_part t) (u32 (t_parts t + 1)) (t_buf t) (t_bytes t) (t_size t) (t_par t) else t), s)
        else Done (mkDec (d_state d) (d_cur d) (d_can d) (d_last d) (d_len d) (d_skip d) true (d_corr d) (d_tcps d), s)
    | Fail => Fail
    | Bad => Bad
    | Fuel => Fuel
    end
  else Done (d, s).

(** j2k.rs:9071-9370: tile-parts until a tile can be decoded or EOC. *)
Fixpoint read_parts (fuel : nat) (m : Z) (d : dec) (s : stream) : outcome (Z * dec * stream) :=
  match fuel with
  | O => Fuel
  | S fuel =>
      if d_can d || (m =? EOC) then Done (m, d, s)
      else
        match read_heads (S (length (s_src s))) m d s with
        | Done (m, d, s) =>
            if (left s =? 0) && (d_state d =? st_NEOC) then Done (m, d, s)
            else
              match (if d_skip d then Done (set_skip false (set_can false (set_state st_TPHSOT d)), s)
                     else match read_sod d s with
                          | Done (d, s) => check_parts d s
                          | Fail => Fail | Bad => Bad | Fuel => Fuel
                          end) with
              | Done (d, s) =>
                  if d_can d then Done (m, d, s)
                  else
                    match take 2 s with
                    | (None, s) =>
                        let i := find (fun i => (t_part (d_tcps d i) =? 0) && (t_parts (d_tcps d i) =? 0)) (Z.to_nat nb) 0 in
                        if (d_cur d + 1 =? nb) && (i <? nb) then Done (EOC, set_state st_EOC (set_cur i d), s)
                        else Fail
                    | (Some b, s) => read_parts fuel (from_be b) d s
                    end
              | Fail => Fail | Bad => Bad | Fuel => Fuel
              end
        | Fail => Fail | Bad => Bad | Fuel => Fuel
        end
  end.

(** j2k.rs:9051-9437 [opj_j2k_read_tile_header]; [None]: no further tile. *)
Definition read_tile_header (d : dec) (s : stream) : outcome (option Z * dec * stream) :=
  match (if d_state d =? st_EOC then Some EOC else if d_state d =? st_TPHSOT then Some SOT else None) with
  | None => Fail
  | Some m =>
      match read_parts (S (S (length (s_src s)))) m d s with
      | Done (m, d, s) =>
          let d := if (m =? EOC) && negb (d_state d =? st_EOC) then set_state st_EOC (set_cur 0 d) else d in
          let i := if d_can d then d_cur d
                   else find (fun i => match t_buf (d_tcps d i) with None => false | Some _ => true end) (Z.to_nat (nb - d_cur d)) (d_cur d) in
          let d := set_cur i d in
          if negb (d_can d) && (i =? nb) then Done (None, d, s)
          else if negb ((0 <=? i) && (i <? nb)) then Bad
          else Done (Some i, set_state (Z.lor (d_state d) st_DATA) d, s)
      | Fail => Fail | Bad => Bad | Fuel => Fuel
      end
  end.

(** j2k.rs:9439-9536 [opj_j2k_decode_tile] *)
Definition decode_tile (i : Z) (d : dec) (s : stream) : outcome (R * dec * stream) :=
  if (Z.land (d_state d) st_DATA =? 0) || negb (i =? d_cur d) then Fail
  else
    let t := d_tcps d i in
    match t_buf t with
    | None => Fail
    | Some room =>
        if room <? t_size t then Bad
        else
          match use i (t_par t) (firstn (Z.to_nat (t_size t)) (t_bytes t)) with
          | None => Fail
          | Some r =>
              let d := set_state (Z.ldiff (d_state d) st_DATA) (set_can false d) in
              if (left s =? 0) && (d_state d =? st_NEOC) then Done (r, d, s)
              else if d_state d =? st_EOC then Done (r, d, s)
              else
                match take 2 s with
                | (None, _) => Fail
                | (Some b, s) =>
                    if from_be b =? EOC then Done (r, set_state st_EOC (set_cur 0 d), s)
                    else if from_be b =? SOT then Done (r, d, s)
                    else if left s =? 0 then Done (r, set_state st_NEOC d, s)
                    else Fail
                end
          end
    end.

(** j2k.rs:8857-8866 [opj_j2k_tcp_data_destroy] *)
Definition drop_data (i : Z) (d : dec) : dec :=
  let t := d_tcps d i in
  match t_buf t with
  | None => d
  | Some _ => put i (mkTcp (t_part t) (t_parts t) None [] 0 (t_par t)) d
  end.

(** j2k.rs:11538-11655 [opj_j2k_decode_tiles], the loop; [n] tiles are left to
    decode.  (Also the particular case of a single tile, which reads one tile.)
    [opj_j2k_update_image_data] is part of [use]. *)
Fixpoint decode_loop (n : nat) (d : dec) (s : stream) : outcome (list (Z * R)) :=
  match n with
  | O => Done []
  | S n =>
      match read_tile_header d s with
      | Done (None, d, s) => Done []
      | Done (Some i, d, s) =>
          match decode_tile i d s with
          | Done (r, d, s) =>
              let d := drop_data i d in
              if (left s =? 0) && (d_state d =? st_NEOC) then Done [(i, r)]
              else
                match decode_loop n d s with
                | Done l => Done ((i, r) :: l)
                | Fail => Fail | Bad => Bad | Fuel => Fuel
                end
          | Fail => Fail | Bad => Bad | Fuel => Fuel
          end
      | Fail => Fail | Bad => Bad | Fuel => Fuel
      end
  end.

(** The decoder after the main header: j2k.rs:8437 (state), 8514
    ([m_current_tile_part_number]). *)
Definition start (par : Z -> C) : dec :=
  mkDec st_TPHSOT 0 false false 0 false false false (fun i => mkTcp (-1) 0 None [] 0 (par i)).

(** [bytes]: what follows the main header and the first SOT marker. *)
Definition decode_tiles (par : Z -> C) (bytes : list Z) : outcome (list (Z * R)) :=
  decode_loop (Z.to_nat nb) (start par) (mkS bytes 0 0).

End Reading.
