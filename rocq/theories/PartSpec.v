(** What a sequence of tile-parts is and means, for PartProps (C60). *)

From Coq Require Import ZArith List Bool.
From Verif Require Import CioModel HdrModel.
Import ListNotations.
Local Open Scope Z_scope.

(** A tile-part: tile, number, the number of tile-parts of the tile (0: not
    told), marker segments of its header (marker, contents), data. *)
Record part := mkPart { q_tile : Z; q_no : Z; q_of : Z; q_segs : list (Z * list Z); q_data : list Z }.

Definition len {A} (l : list A) : Z := Z.of_nat (length l).

(** ISO 15444-1 A.4.2, A.4.3; [be n v] is [v] in [n] bytes, high byte first. *)
Definition seg_bytes (sg : Z * list Z) : list Z := be 2 (fst sg) ++ be 2 (len (snd sg) + 2) ++ snd sg.
Definition heads_bytes (p : part) : list Z := flat_map seg_bytes (q_segs p).
Definition part_bytes (p : part) : list Z :=
  be 2 65424 ++ be 2 10 ++ be 2 (q_tile p) ++ be 4 (14 + len (heads_bytes p) + len (q_data p)) ++
  be 1 (q_no p) ++ be 1 (q_of p) ++ heads_bytes p ++ be 2 65427 ++ q_data p.
(** ... and the end of the code-stream. *)
Definition body (ps : list part) : list Z := flat_map part_bytes ps ++ be 2 65497.

(** The tile-parts of a tile, whether their number is told, their data. *)
Definition mine (i : Z) (ps : list part) : list part := filter (fun p => q_tile p =? i) ps.
Definition told (i : Z) (ps : list part) : bool := existsb (fun p => negb (q_of p =? 0)) (mine i ps).
Definition data_of (i : Z) (ps : list part) : list Z := flat_map q_data (mine i ps).

(** The coding parameters of a tile after the marker segments of its tile-parts. *)
Fixpoint after {C} (handle : Z -> Z -> C -> list Z -> option C) (i : Z) (c : C) (segs : list (Z * list Z)) : option C :=
  match segs with
  | [] => Some c
  | (m, b) :: segs => match handle m i c b with None => None | Some c => after handle i c segs end
  end.
Definition par_of {C} (handle : Z -> Z -> C -> list Z -> option C) (i : Z) (c : C) (ps : list part) : option C :=
  after handle i c (flat_map q_segs (mine i ps)).

(** Markers allowed in a tile-part header (ISO 15444-1 table A.2, and the
    transform markers of 15444-2). *)
Definition in_header (m : Z) : Prop :=
  In m [COD; COC; RGN; QCD; QCC; POC; PLT; PPT; COM; MCT; MCC; MCO].

(** A conforming sequence of tile-parts for [nb] tiles. *)
Definition part_ok (nb : Z) (ps : list part) (p : part) : Prop :=
  0 <= q_tile p < nb /\ (q_of p = 0 \/ q_of p = len (mine (q_tile p) ps)) /\
  Forall (fun sg => in_header (fst sg) /\ len (snd sg) <= 65533) (q_segs p) /\
  14 + len (heads_bytes p) + len (q_data p) < 2 ^ 32.
Definition sequence_ok (nb : Z) (ps : list part) : Prop :=
  0 <= nb <= 65535 /\ Forall (part_ok nb ps) ps /\
  (forall a p b, ps = a ++ p :: b -> q_no p = len (mine (q_tile p) a)) /\
  (forall i, len (mine i ps) <= 255) /\ (forall i, len (data_of i ps) <= 2 ^ 32 - 3).

(** The tiles in the order of their last tile-parts. *)
Fixpoint lasts (ps : list part) : list Z :=
  match ps with
  | [] => []
  | p :: ps => if existsb (fun q => q_tile q =? q_tile p) ps then lasts ps else q_tile p :: lasts ps
  end.
Definition tiles (nb : Z) : list Z := map Z.of_nat (seq 0 (Z.to_nat nb)).
(** The order in which tiles get decoded: those whose number of tile-parts is
    told as soon as they are complete; the others at the end of the code-stream,
    by their numbers. *)
Definition order (nb : Z) (wanted : Z -> bool) (ps : list part) : list Z :=
  filter (fun i => wanted i && told i ps) (lasts ps) ++
  filter (fun i => wanted i && negb (told i ps) && negb (len (mine i ps) =? 0)) (tiles nb).
