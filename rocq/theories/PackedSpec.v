(** Packets with their headers taken out: what PPM and PPT segments and the tile
    data hold for the packets that the encoder writes. *)

From Coq Require Import ZArith List Bool.
From Verif Require Import Ints BioModel TgtModel T2CodesModel T2PacketModel PiModel PacketsModel.
Import ListNotations.
Local Open Scope Z_scope.

(** SOP marker, header with EPH marker, body. *)
Definition three : Type := list Z * list Z * list Z.
Definition whole (t : three) : list Z := let '(s, h, b) := t in s ++ h ++ b.
Definition header_of (t : three) : list Z := let '(s, h, b) := t in h.
Definition data_of (t : three) : list Z := let '(s, h, b) := t in s ++ b.

(** A packet of T2PacketModel in three parts, see [split_whole]. *)
Definition split_packet (csty packno : Z) (lay : nat) (room : Z) (bs : list eband) : option (three * list eband) :=
  match put_sop csty packno room with
  | None => None
  | Some (sop, room) =>
      let bs := if (lay =? 0)%nat then map enc_start bs else bs in
      let '(fs, bs) := enc_bands lay bs in
      match write_fields (init_enc (Z.to_nat room)) ((1, 1) :: fs) with
      | None => None
      | Some w =>
          match flush w with
          | (_, false) => None
          | (w, true) =>
              match put_eph csty (room - w_numbytes w) with
              | None => None
              | Some (eph, room) =>
                  match enc_body lay room bs with
                  | None => None
                  | Some (body, _, bs) => Some (sop, rev (w_out w) ++ eph, body, bs)
                  end
              end
          end
      end
  end.
Fixpoint split_packets (csty packno maxlay room : Z) (st : place -> list eband) (ps : list packet)
  : option (list three * Z * (place -> list eband)) :=
  match ps with
  | [] => Some ([], packno, st)
  | q :: ps =>
      if layer_no q <? maxlay then
        match split_packet csty packno (Z.to_nat (layer_no q)) room (st (place_of q)) with
        | None => None
        | Some (t, es) =>
            match split_packets csty (u32 (packno + 1)) maxlay (u32 (room - Z.of_nat (length (whole t)))) (store (place_of q) es st) ps with
            | None => None
            | Some (more, no, st) => Some (t :: more, no, st)
            end
        end
      else split_packets csty packno maxlay room st ps
  end.
Fixpoint split_parts (csty packno maxlay : Z) (st : place -> list eband) (parts : list (Z * list packet))
  : option (list (list three) * (place -> list eband)) :=
  match parts with
  | [] => Some ([], st)
  | (room, ps) :: parts =>
      match split_packets csty packno maxlay room st ps with
      | None => None
      | Some (l, no, st) =>
          match split_parts csty no maxlay st parts with
          | None => None
          | Some (more, st) => Some (l :: more, st)
          end
      end
  end.
(** All the headers, all the data. *)
Definition headers (l : list three) : list Z := concat (map header_of l).
Definition data (l : list three) : list Z := concat (map data_of l).
