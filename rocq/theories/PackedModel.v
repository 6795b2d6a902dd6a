(** Model of reading packets whose headers are packed in PPM or PPT segments,
    t2.rs:1065-1108 and 1352-1389; the packets themselves as in T2PacketModel and
    PacketsModel.  Not modelled here: packets that are skipped. *)

From Coq Require Import ZArith List Bool.
From Verif Require Import Ints BioModel TgtModel T2CodesModel T2PacketModel PiModel PacketsModel.
Import ListNotations.
Local Open Scope Z_scope.

(** t2.rs:1002-1389 with [ppm] or [ppt] set: [hdrs] is what [ppm_data] or
    [ppt_data] points to ([ppm_len], [ppt_len] bytes).  The SOP marker is looked for
    in the data, the EPH marker in the headers.  Result: new state, whether a body
    follows, headers and data left. *)
Definition packed_header (sty csty : Z) (lay : nat) (bs : list dband) (hdrs data : list Z)
  : option (list dband * bool * list Z * list Z) :=
  let bs := if (lay =? 0)%nat then map dec_start bs else bs in
  let data := skip_sop csty data in
  let '(present, r) := read1 (init_dec hdrs) in
  if negb present then Some (bs, false, skip_eph csty (r_in (fst (inalign r))), data)
  else
    match dec_bands (8 * List.length hdrs + 1) sty lay bs r with
    | None => None
    | Some (bs, r) =>
        match inalign r with
        | (_, false) => None
        | (r, true) => Some (bs, true, skip_eph csty (r_in r), data)
        end
    end.

(** t2.rs:535-589 *)
Definition packed_packet (sty csty : Z) (lay : nat) (bs : list dband) (hdrs data : list Z)
  : option (list dband * list Z * list Z) :=
  match packed_header sty csty lay bs hdrs data with
  | None => None
  | Some (bs, false, hdrs, data) => Some (bs, hdrs, data)
  | Some (bs, true, hdrs, data) => match read_data bs data with Some (bs, data) => Some (bs, hdrs, data) | None => None end
  end.

(** t2.rs:369-483, all packets wanted. *)
Fixpoint packed_packets (sty : Z -> Z) (csty : Z) (st : place -> list dband) (ps : list packet) (hdrs data : list Z)
  : option ((place -> list dband) * list Z * list Z) :=
  match ps with
  | [] => Some (st, hdrs, data)
  | q :: ps =>
      let p := place_of q in
      match packed_packet (sty (comp_of p)) csty (Z.to_nat (layer_no q)) (st p) hdrs data with
      | None => None
      | Some (ds, hdrs, data) => packed_packets sty csty (store p ds st) ps hdrs data
      end
  end.

(** The tiles of an image with PPM segments, in the order they are decoded
    (j2k.rs:9072-9335 and 9498-9507: a tile whose data are skipped is not decoded,
    and nothing else moves [ppm_data]). *)
Record tile_job := mkJob { j_sty : Z -> Z; j_csty : Z; j_state : place -> list dband; j_packets : list packet; j_data : list Z }.
Fixpoint ppm_tiles (tiles : list (bool * tile_job)) (hdrs : list Z) : option (list (place -> list dband)) :=
  match tiles with
  | [] => Some []
  | (false, _) :: tiles => ppm_tiles tiles hdrs
  | (true, j) :: tiles =>
      match packed_packets (j_sty j) (j_csty j) (j_state j) (j_packets j) hdrs (j_data j) with
      | None => None
      | Some (ds, hdrs, _) => match ppm_tiles tiles hdrs with Some l => Some (ds :: l) | None => None end
      end
  end.
