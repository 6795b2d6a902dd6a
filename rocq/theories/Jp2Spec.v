(** The JP2 file format (ISO/IEC 15444-1, Annex I), as far as the properties of
    the file format layer need it; independent of the model. *)

From Coq Require Import ZArith List Bool.
Import ListNotations.
Local Open Scope Z_scope.

(** A big endian field of [n] bytes. *)
Definition field (n : nat) (v : Z) : list Z := map (fun i => (v / 256 ^ Z.of_nat i) mod 256) (rev (seq 0 n)).
Definition code (a b c d : Z) : Z := ((a * 256 + b) * 256 + c) * 256 + d.
Definition size {A} (l : list A) : Z := Z.of_nat (length l).

(** I.4: a box with type [t] and contents [c]. *)
Definition boxed (t : Z) (c : list Z) : list Z := field 4 (8 + size c) ++ field 4 t ++ c.

(** Types, by their ASCII codes. *)
Definition t_jP   := code 106 80 32 32.
Definition t_ftyp := code 102 116 121 112.
Definition t_jp2h := code 106 112 50 104.
Definition t_ihdr := code 105 104 100 114.
Definition t_bpcc := code 98 112 99 99.
Definition t_colr := code 99 111 108 114.
Definition t_pclr := code 112 99 108 114.
Definition t_cmap := code 99 109 97 112.
Definition t_cdef := code 99 100 101 102.
Definition t_jp2c := code 106 112 50 99.
Definition jp2_brand := code 106 112 50 32.

(** I.5.1, I.5.2, I.5.3: what a file header says. *)
Inductive space := Enumerated (e : Z) | Profile (l : list Z).
Record header := mkHeader {
  height : Z; width : Z; components : Z; depth : Z;         (* Image Header box; [depth] is BPC *)
  depths : list Z;                                          (* Bits Per Component box, present when BPC is 255 *)
  colours : space;                                          (* Colour Specification box *)
  channels : list (Z * Z * Z) }.                            (* Channel Definition box: Cn, Typ, Asoc; absent if empty *)

Definition signature : list Z := boxed t_jP [13; 10; 135; 10].
Definition file_type (brand minv : Z) (cl : list Z) : list Z :=
  boxed t_ftyp (field 4 brand ++ field 4 minv ++ flat_map (field 4) cl).
Definition image_header (h : header) : list Z :=
  boxed t_ihdr (field 4 (height h) ++ field 4 (width h) ++ field 2 (components h) ++ [depth h; 7; 0; 0]).
Definition bits_per_component (h : header) : list Z := if depth h =? 255 then boxed t_bpcc (depths h) else [].
Definition colour_specification (h : header) : list Z :=
  boxed t_colr (match colours h with
                | Enumerated e => [1; 0; 0] ++ field 4 e
                | Profile l => [2; 0; 0] ++ l
                end).
Definition channel_definition (h : header) : list Z :=
  match channels h with
  | [] => []
  | l => boxed t_cdef (field 2 (size l) ++ flat_map (fun '(cn, typ, asoc) => field 2 cn ++ field 2 typ ++ field 2 asoc) l)
  end.
Definition jp2_header (h : header) : list Z :=
  boxed t_jp2h (image_header h ++ bits_per_component h ++ colour_specification h ++ channel_definition h).
(** The file around a code-stream. *)
Definition file (h : header) (cs : list Z) : list Z :=
  signature ++ file_type jp2_brand 0 [jp2_brand] ++ jp2_header h ++ boxed t_jp2c cs.

(** I.5.3.1, I.5.3.2: BPC of components given by their depth and sign, and
    what a reader concludes. *)
Definition bits (c : Z * bool) : Z := fst c - 1 + if snd c then 128 else 0.
Definition decode_bits (b : Z) : Z * bool := (b mod 128 + 1, 128 <=? b).
Definition all_same (l : list Z) : bool := match l with [] => true | x :: l => forallb (Z.eqb x) l end.
Definition bpc_of (l : list (Z * bool)) : Z := if all_same (map bits l) then hd 0 (map bits l) else 255.
Definition component_bits (h : header) : list (Z * bool) :=
  map decode_bits (if depth h =? 255 then depths h else repeat (depth h) (Z.to_nat (components h))).

(** I.4: the boxes at the top level of a file, up to the code-stream box; [None]
    when a box does not fit, or a length is not valid. *)
Fixpoint top_boxes (fuel : nat) (d : list Z) : list (Z * list Z) :=
  match fuel with
  | O => []
  | S fuel =>
      match d with
      | l3 :: l2 :: l1 :: l0 :: t3 :: t2 :: t1 :: t0 :: d' =>
          let len := code l3 l2 l1 l0 in
          let t := code t3 t2 t1 t0 in
          if t =? t_jp2c then []
          else
            let cut n r := if n <? 0 then [] else if size r <? n then []
                           else (t, firstn (Z.to_nat n) r) :: top_boxes fuel (skipn (Z.to_nat n) r) in
            if len =? 0 then [(t, d')]
            else if len =? 1 then
              match d' with
              | h3 :: h2 :: h1 :: h0 :: k3 :: k2 :: k1 :: k0 :: d'' =>
                  if code h3 h2 h1 h0 =? 0 then cut (code k3 k2 k1 k0 - 16) d'' else []
              | _ => []
              end
            else cut (len - 8) d'
      | _ => []
      end
  end.

(** I.5.3.4, I.5.3.5: a sample of palette channel [c] for index [k]; rows of [n] columns. *)
Definition palette_value (rows : list (list Z)) (c : nat) (k : Z) : option Z :=
  match nth_error rows (Z.to_nat (Z.max 0 (Z.min k (size rows - 1)))) with
  | Some row => nth_error row c
  | None => None
  end.
