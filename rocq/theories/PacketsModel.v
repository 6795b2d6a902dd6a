(** Model of the packets of a tile in sequence: t2.rs [opj_t2_encode_packets]
    (final pass) and [opj_t2_decode_packets].

    The packet iterator is PiModel; here its output is given. A tile's
    precincts are states indexed by resolution, component and precinct number.
    Not modelled: the threshold-calculation pass, [resno_decoded], indices. *)

From Coq Require Import ZArith List Bool.
From Verif Require Import Ints T2CodesModel T2PacketModel PiModel.
Import ListNotations.
Local Open Scope Z_scope.

(** Resolution, component, precinct of a packet; its layer. *)
Definition place : Type := Z * Z * Z.
Definition place_of (q : packet) : place := let '(l, r, c, k) := q in (r, c, k).
Definition layer_no (q : packet) : Z := let '(l, r, c, k) := q in l.
Definition comp_of (p : place) : Z := snd (fst p).
Definition same_place (p q : place) : bool :=
  (fst (fst p) =? fst (fst q)) && (snd (fst p) =? snd (fst q)) && (snd p =? snd q).
Definition store {A : Type} (p : place) (v : A) (st : place -> A) : place -> A := fun q => if same_place q p then v else st q.

(** t2.rs:244-309, the loop of the final pass: each packet goes behind the ones
    before it, into what is left of the buffer; [packno] counts the packets of
    the tile. Result: the bytes, the next packet number, the precincts. *)
Fixpoint write_packets (csty packno maxlay room : Z) (st : place -> list eband) (ps : list packet)
  : option (list Z * Z * (place -> list eband)) :=
  match ps with
  | [] => Some ([], packno, st)
  | q :: ps =>
      if layer_no q <? maxlay then
        match encode_packet csty packno (Z.to_nat (layer_no q)) room (st (place_of q)) with
        | None => None
        | Some (bytes, es) =>
            match write_packets csty (u32 (packno + 1)) maxlay (u32 (room - Z.of_nat (length bytes))) (store (place_of q) es st) ps with
            | None => None
            | Some (more, no, st) => Some (bytes ++ more, no, st)
            end
        end
      else write_packets csty packno maxlay room st ps
  end.

(** One call per tile-part, each with a buffer of its own (tcd.rs:1579-1681
    [opj_tcd_encode_tile], tcd.rs:2774-2812 [opj_tcd_t2_encode]). *)
Fixpoint write_parts (csty packno maxlay : Z) (st : place -> list eband) (parts : list (Z * list packet))
  : option (list (list Z) * (place -> list eband)) :=
  match parts with
  | [] => Some ([], st)
  | (room, ps) :: parts =>
      match write_packets csty packno maxlay room st ps with
      | None => None
      | Some (bytes, no, st) =>
          match write_parts csty no maxlay st parts with
          | None => None
          | Some (more, st) => Some (bytes :: more, st)
          end
      end
  end.

(** t2.rs:369-483: each packet begins where the one before ended. [want] is the
    condition of t2.rs:386-425: layer and resolution are to be decoded and the
    precinct touches the area of interest. [sty] is the code-block style of a
    component. *)
Fixpoint read_packets (sty : Z -> Z) (csty : Z) (want : packet -> bool) (st : place -> list dband) (ps : list packet) (data : list Z)
  : option ((place -> list dband) * list Z) :=
  match ps with
  | [] => Some (st, data)
  | q :: ps =>
      let p := place_of q in
      match (if want q then decode_packet else skip_packet) (sty (comp_of p)) csty (Z.to_nat (layer_no q)) (st p) data with
      | None => None
      | Some (ds, data) => read_packets sty csty want (store p ds st) ps data
      end
  end.
