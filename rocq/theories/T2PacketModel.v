(** Model of one packet (t2.rs): [opj_t2_encode_packet] and
    [opj_t2_decode_packet] with [opj_t2_read_packet_header] and
    [opj_t2_read_packet_data].

    The packet of one layer concerns one precinct of one resolution: for each
    sub-band of the resolution the precinct's code-blocks and its two tag
    trees.  Sub-bands that are empty are skipped by every loop
    ([opj_tcd_is_band_empty]), so the model's lists hold only the others.  The
    precinct is given, so the [precno] range checks (t2.rs:667, 716, 1042) are
    not modelled.  A precinct without code-blocks has null trees, which no code
    touches; the model has some tree there.

    Not modelled: packed packet headers (PPM, PPT), the index structures, the
    threshold-calculation mode of the encoder (which differs only in not
    copying the bodies), allocation failure.  The decoder is in strict mode
    (the default), where a body that is too short is an error. *)

From Coq Require Import ZArith List Bool.
From Verif Require Import I32 MathModel BioModel TgtModel T2CodesModel Ints.
Import ListNotations.
Local Open Scope Z_scope.

(** ** Encoder *)

(** tcd.rs [opj_tcd_pass_t]: length of the pass in the code-block's data and
    whether the coder was terminated after it. *)
Record pass : Type := mkPass { p_len : Z; p_term : bool }.
(** tcd.rs [opj_tcd_layer_t]: the passes and bytes a layer adds; [len] is the
    length of [l_data]. *)
Record layer : Type := mkLayer { l_passes : nat; l_data : list Z }.
(** tcd.rs [opj_tcd_cblk_enc_t]: [numbps], [passes], [layers], [numpasses],
    [numlenbits].  [numbps] is the i32 the u32 field is converted to; it is
    negative when all coefficients are below one quantizer step (t1.rs:2783-2787),
    and the block then has no passes. *)
Record ecblk : Type :=
  mkE { e_numbps : Z; e_pass : list pass; e_layers : list layer; e_done : nat; e_lenbits : Z }.
(** One sub-band and its precinct: [numbps], [incltree], [imsbtree], [cblks]. *)
Record eband : Type := mkEB { eb_numbps : Z; eb_incl : tree; eb_imsb : tree; eb_blocks : list ecblk }.

Definition layer_of (lay : nat) (c : ecblk) : layer := nth lay (e_layers c) (mkLayer 0 []).

(** t2.rs:681-692, the loop storing the zero bit-planes and clearing
    [numpasses]. *)
Fixpoint set_imsb (t : tree) (i : nat) (nb : Z) (l : list ecblk) : tree :=
  match l with
  | [] => t
  | c :: l => set_imsb (tgt_setvalue t i (nb - e_numbps c)) (S i) nb l
  end.
Definition clear_block (c : ecblk) : ecblk := mkE (e_numbps c) (e_pass c) (e_layers c) 0 (e_lenbits c).
(** t2.rs:664-693, one sub-band before the first layer. *)
Definition enc_start (b : eband) : eband :=
  mkEB (eb_numbps b) (tgt_reset (eb_incl b)) (set_imsb (tgt_reset (eb_imsb b)) 0 (eb_numbps b) (eb_blocks b))
       (map clear_block (eb_blocks b)).

(** t2.rs:730-738, blocks included for the first time. *)
Fixpoint mark (lay : nat) (t : tree) (i : nat) (l : list ecblk) : tree :=
  match l with
  | [] => t
  | c :: l =>
      let t := if (e_done c =? 0)%nat && negb (l_passes (layer_of lay c) =? 0)%nat
               then tgt_setvalue t i (Z.of_nat lay) else t in
      mark lay t (S i) l
  end.

(** t2.rs:776-797 and 806-828: both loops run through the layer's passes and act
    at terminated passes and at the last one; these are the [nump] and [len] they
    then hold. *)
Fixpoint segments (ps : list pass) (nump len : Z) : list (Z * Z) :=
  match ps with
  | [] => []
  | p :: r =>
      let nump := u32 (nump + 1) in
      let len := u32 (len + p_len p) in
      if p_term p || match r with [] => true | _ => false end
      then (nump, len) :: segments r 0 0
      else segments r nump len
  end.

(** t2.rs:786-791 *)
Definition increment (lenbits : Z) (l : list (Z * Z)) : Z :=
  fold_left (fun inc (s : Z * Z) =>
    Z.max inc (floorlog2 (i32 (snd s)) + 1 - (i32 lenbits + floorlog2 (i32 (fst s))))) l 0.

(** [opj_bio_putbit] calls as one-bit fields. *)
Definition bit_fields (l : list bool) : list (Z * Z) := map (fun b : bool => (if b then 1 else 0, 1)) l.

(** t2.rs:742-830, one code-block. *)
Definition enc_block (lay : nat) (incl imsb : tree) (i : nat) (c : ecblk) : list (Z * Z) * tree * tree * ecblk :=
  let ly := layer_of lay c in
  let '(f0, incl) :=
    if (e_done c =? 0)%nat then let '(bs, t) := tgt_encode incl i (i32 (Z.of_nat lay + 1)) in (bit_fields bs, t)
    else ([(if (l_passes ly =? 0)%nat then 0 else 1, 1)], incl) in
  if (l_passes ly =? 0)%nat then (f0, incl, imsb, c) else
  let '(f1, imsb, lenbits) :=
    if (e_done c =? 0)%nat then let '(bs, t) := tgt_encode imsb i 999 in (bit_fields bs, t, 3)
    else ([], imsb, e_lenbits c) in
  let segs := segments (firstn (l_passes ly) (skipn (e_done c) (e_pass c))) 0 0 in
  let inc := increment lenbits segs in
  let lenbits := u32 (lenbits + inc) in
  (f0 ++ f1 ++ put_numpasses (Z.of_nat (l_passes ly)) ++ put_commacode inc ++
     map (fun s : Z * Z => (snd s, u32 (lenbits + floorlog2 (i32 (fst s))))) segs,
   incl, imsb, mkE (e_numbps c) (e_pass c) (e_layers c) (e_done c) lenbits).

(** t2.rs:739-832 *)
Fixpoint enc_blocks (lay : nat) (incl imsb : tree) (i : nat) (l : list ecblk)
  : list (Z * Z) * tree * tree * list ecblk :=
  match l with
  | [] => ([], incl, imsb, [])
  | c :: l =>
      let '(f, incl, imsb, c) := enc_block lay incl imsb i c in
      let '(fs, incl, imsb, l) := enc_blocks lay incl imsb (S i) l in
      (f ++ fs, incl, imsb, c :: l)
  end.

(** t2.rs:713-833, one sub-band. *)
Definition enc_band (lay : nat) (b : eband) : list (Z * Z) * eband :=
  let '(f, incl, imsb, l) := enc_blocks lay (mark lay (eb_incl b) 0 (eb_blocks b)) (eb_imsb b) 0 (eb_blocks b) in
  (f, mkEB (eb_numbps b) incl imsb l).

(** t2.rs:708-836 *)
Fixpoint enc_bands (lay : nat) (l : list eband) : list (Z * Z) * list eband :=
  match l with
  | [] => ([], [])
  | b :: l =>
      let '(f, b) := enc_band lay b in
      let '(fs, l) := enc_bands lay l in
      (f ++ fs, b :: l)
  end.

(** t2.rs:888-936, the bodies; [None] when the buffer is too small. *)
Fixpoint enc_body_blocks (lay : nat) (room : Z) (l : list ecblk) : option (list Z * Z * list ecblk) :=
  match l with
  | [] => Some ([], room, [])
  | c :: l =>
      let ly := layer_of lay c in
      let n := Z.of_nat (List.length (l_data ly)) in
      if (l_passes ly =? 0)%nat then
        match enc_body_blocks lay room l with
        | Some (d, room, l) => Some (d, room, c :: l)
        | None => None
        end
      else if room <? n then None
      else
        match enc_body_blocks lay (room - n) l with
        | Some (d, room, l) =>
            Some (l_data ly ++ d, room,
                  mkE (e_numbps c) (e_pass c) (e_layers c) (e_done c + l_passes ly) (e_lenbits c) :: l)
        | None => None
        end
  end.

(** t2.rs:878-940 *)
Fixpoint enc_body (lay : nat) (room : Z) (l : list eband) : option (list Z * Z * list eband) :=
  match l with
  | [] => Some ([], room, [])
  | b :: l =>
      match enc_body_blocks lay room (eb_blocks b) with
      | None => None
      | Some (d, room, bl) =>
          match enc_body lay room l with
          | Some (d', room, l) => Some (d ++ d', room, mkEB (eb_numbps b) (eb_incl b) (eb_imsb b) bl :: l)
          | None => None
          end
      end
  end.

(** t2.rs:635-656; [None] when the buffer is too small. *)
Definition put_sop (csty packno room : Z) : option (list Z * Z) :=
  if Z.land csty 2 =? 0 then Some ([], room)
  else if room <? 6 then None
  else Some ([255; 145; 0; 4; Z.land (Z.shiftr packno 8) 255; Z.land packno 255], room - 6).

(** t2.rs:847-864 *)
Definition put_eph (csty room : Z) : option (list Z * Z) :=
  if Z.land csty 4 =? 0 then Some ([], room)
  else if room <? 2 then None
  else Some ([255; 146], room - 2).

(** t2.rs:604-945 [opj_t2_encode_packet]: the bytes written into a buffer of
    [room] bytes and the new state.  [None] is a failure return, or the panic of
    [opj_bio_write] on a width above 32. *)
Definition encode_packet (csty packno : Z) (lay : nat) (room : Z) (bs : list eband) : option (list Z * list eband) :=
  match put_sop csty packno room with
  | None => None
  | Some (sop, room) =>
      let bs := if (lay =? 0)%nat then map enc_start bs else bs in
      let '(fs, bs) := enc_bands lay bs in
      match write_fields (init_enc (Z.to_nat room)) ((1, 1) :: fs) with
      | None => None
      | Some w =>
          match flush w with
          | (_, false) => None
          | (w, true) =>
              let hdr := rev (w_out w) in
              match put_eph csty (room - w_numbytes w) with
              | None => None
              | Some (eph, room) =>
                  match enc_body lay room bs with
                  | None => None
                  | Some (body, _, bs) => Some (sop ++ hdr ++ eph ++ body, bs)
                  end
              end
          end
      end
  end.

(** ** Decoder *)

(** tcd.rs [opj_tcd_seg_t]: [len], [numpasses], [real_num_passes], [maxpasses],
    [numnewpasses], [newlen]. *)
Record seg : Type :=
  mkSeg { s_len : Z; s_passes : Z; s_real : Z; s_max : Z; s_new : Z; s_newlen : Z }.
(** tcd.rs [opj_tcd_cblk_dec_t]: [numsegs], [real_num_segs], [segs], [numbps],
    [Mb], [numlenbits], [numnewpasses], [chunks].  Chunks are pointers into the
    packet bodies; the model holds the bytes they cover. *)
Record dblk : Type :=
  mkD { d_numsegs : nat; d_realsegs : nat; d_segs : list seg; d_numbps : Z; d_mb : Z; d_lenbits : Z; d_new : Z;
        d_chunks : list (list Z) }.
Record dband : Type := mkDB { db_numbps : Z; db_incl : tree; db_imsb : tree; db_blocks : list dblk }.

(** t2.rs:1661-1712 [opj_t2_init_seg].  Entries above [index] keep stale contents
    in the code; each is initialised before it is read, so the model drops
    them. *)
Definition seg0 : seg := mkSeg 0 0 0 0 0 0.
Definition init_seg (sty : Z) (index : nat) (first : bool) (segs : list seg) : list seg :=
  let m :=
    if negb (Z.land sty 4 =? 0) then 1
    else if negb (Z.land sty 1 =? 0) then
      if first then 10
      else let p := s_max (nth (index - 1) segs seg0) in if (p =? 1) || (p =? 10) then 2 else 1
    else 109 in
  firstn index segs ++ [mkSeg 0 0 0 m 0 0].

Definition set_seg (index : nat) (s : seg) (segs : list seg) : list seg :=
  firstn index segs ++ s :: skipn (S index) segs.

(** t2.rs:1053-1059 and 1049-1050, one sub-band before the first layer. *)
Definition dec_start (b : dband) : dband :=
  mkDB (db_numbps b) (tgt_reset (db_incl b)) (tgt_reset (db_imsb b))
    (map (fun c => mkD 0 0 (d_segs c) (d_numbps c) (d_mb c) (d_lenbits c) (d_new c) (d_chunks c)) (db_blocks b)).

(** t2.rs:1184-1189, the search for the zero bit-planes.  No leaf value exceeds
    999, so the loop ends at 1000 at the latest. *)
Fixpoint find_imsb (fuel : nat) (t : tree) (leaf : nat) (i : Z) (r : bio_r) : option (Z * tree * bio_r) :=
  match fuel with
  | O => None
  | S fuel =>
      let '(b, t, r) := tgt_decode t leaf i r in
      if b then Some (i, t, r) else find_imsb fuel t leaf (i + 1) r
  end.

(** t2.rs:1240-1343, the loop over the segments of the layer; [n] passes are
    left.  [None] is the failure return for a width above 32. *)
Fixpoint dec_segs (fuel : nat) (sty : Z) (segs : list seg) (k : nat) (lenbits n : Z) (r : bio_r)
  : option (list seg * bio_r) :=
  match fuel with
  | O => None
  | S fuel =>
      let s := nth k segs seg0 in
      let nw := if negb (Z.land sty 64 =? 0) then (if (k =? 0)%nat then 1 else u32 n)
                else u32 (Z.min (i32 (u32 (s_max s - s_passes s))) n) in
      let w := u32 (lenbits + floorlog2 nw) in
      if 32 <? w then None else
      match bio_read r w with
      | None => None
      | Some (v, r) =>
          let segs := set_seg k (mkSeg (s_len s) (s_passes s) (s_real s) (s_max s) nw v) segs in
          let n := i32 (n - i32 nw) in
          if 0 <? n then dec_segs fuel sty (init_seg sty (S k) false segs) (S k) lenbits n r
          else Some (segs, r)
      end
  end.

(** t2.rs:1157-1346, one code-block; [fuel] bounds the comma code by the bits
    there are. *)
Definition dec_block (fuel : nat) (sty : Z) (lay : nat) (nb : Z) (incl imsb : tree) (i : nat) (c : dblk) (r : bio_r)
  : option (tree * tree * dblk * bio_r) :=
  let '(inc, incl, r) :=
    if (d_numsegs c =? 0)%nat then tgt_decode incl i (i32 (Z.of_nat lay + 1)) r
    else let '(b, r) := read1 r in (b, incl, r) in
  if negb inc then
    Some (incl, imsb, mkD (d_numsegs c) (d_realsegs c) (d_segs c) (d_numbps c) (d_mb c) (d_lenbits c) 0 (d_chunks c), r)
  else
    let first :=
      if (d_numsegs c =? 0)%nat then
        match find_imsb 1001 imsb i 0 r with
        | None => None
        | Some (v, imsb, r) => Some (imsb, r, u32 (nb + 1 - v), u32 nb, 3)
        end
      else Some (imsb, r, d_numbps c, d_mb c, d_lenbits c) in
    match first with
    | None => None
    | Some (imsb, r, numbps, mb, lenbits) =>
        let '(n, r) := get_numpasses r in
        match get_commacode fuel 0 r with
        | None => None
        | Some (x, r) =>
            let lenbits := u32 (lenbits + x) in
            let '(k, segs) :=
              if (d_numsegs c =? 0)%nat then (0%nat, init_seg sty 0 true (d_segs c))
              else
                let k := (d_numsegs c - 1)%nat in
                let s := nth k (d_segs c) seg0 in
                if s_passes s =? s_max s then (S k, init_seg sty (S k) false (d_segs c)) else (k, d_segs c) in
            match dec_segs (S (Z.to_nat n)) sty segs k lenbits (i32 n) r with
            | None => None
            | Some (segs, r) =>
                Some (incl, imsb, mkD (d_numsegs c) (d_realsegs c) segs numbps mb lenbits n (d_chunks c), r)
            end
        end
    end.

Fixpoint dec_blocks (fuel : nat) (sty : Z) (lay : nat) (nb : Z) (incl imsb : tree) (i : nat) (l : list dblk) (r : bio_r)
  : option (tree * tree * list dblk * bio_r) :=
  match l with
  | [] => Some (incl, imsb, [], r)
  | c :: l =>
      match dec_block fuel sty lay nb incl imsb i c r with
      | None => None
      | Some (incl, imsb, c, r) =>
          match dec_blocks fuel sty lay nb incl imsb (S i) l r with
          | None => None
          | Some (incl, imsb, l, r) => Some (incl, imsb, c :: l, r)
          end
      end
  end.

(** t2.rs:1148-1351 *)
Fixpoint dec_bands (fuel : nat) (sty : Z) (lay : nat) (l : list dband) (r : bio_r) : option (list dband * bio_r) :=
  match l with
  | [] => Some ([], r)
  | b :: l =>
      match dec_blocks fuel sty lay (db_numbps b) (db_incl b) (db_imsb b) 0 (db_blocks b) r with
      | None => None
      | Some (incl, imsb, bl, r) =>
          match dec_bands fuel sty lay l r with
          | None => None
          | Some (l, r) => Some (mkDB (db_numbps b) incl imsb bl :: l, r)
          end
      end
  end.

(** t2.rs:1067-1078 *)
Definition skip_sop (csty : Z) (data : list Z) : list Z :=
  if Z.land csty 2 =? 0 then data
  else if Z.of_nat (List.length data) <? 6 then data
  else if negb (nth 0 data 0 =? 255) || negb (nth 1 data 0 =? 145) then data
  else skipn 6 data.

(** t2.rs:1118-1131 and 1359-1372 *)
Definition skip_eph (csty : Z) (data : list Z) : list Z :=
  if Z.land csty 4 =? 0 then data
  else if Z.of_nat (List.length data) <? 2 then data
  else if negb (nth 0 data 0 =? 255) || negb (nth 1 data 0 =? 146) then data
  else skipn 2 data.

(** t2.rs:1002-1389 [opj_t2_read_packet_header]: new state, whether a body
    follows, the bytes left. *)
Definition read_header (sty csty : Z) (lay : nat) (bs : list dband) (data : list Z)
  : option (list dband * bool * list Z) :=
  let bs := if (lay =? 0)%nat then map dec_start bs else bs in
  let data := skip_sop csty data in
  let '(present, r) := read1 (init_dec data) in
  if negb present then Some (bs, false, skip_eph csty (r_in (fst (inalign r))))
  else
    match dec_bands (8 * List.length data + 1) sty lay bs r with
    | None => None
    | Some (bs, r) =>
        match inalign r with
        | (_, false) => None
        | (r, true) => Some (bs, true, skip_eph csty (r_in r))
        end
    end.

(** t2.rs:1446-1537 in strict mode, the loop over the segments of one block;
    [k] is the current segment, always the last of the [numsegs] ones. *)
Fixpoint read_segs (fuel : nat) (k : nat) (c : dblk) (data : list Z) : option (dblk * list Z) :=
  match fuel with
  | O => None
  | S fuel =>
      let s := nth k (d_segs c) seg0 in
      if Z.of_nat (List.length data) <? s_newlen s then None else
      let chunk := firstn (Z.to_nat (s_newlen s)) data in
      let np := u32 (s_passes s + s_new s) in
      let c := mkD (S k) (d_realsegs c)
                   (set_seg k (mkSeg (u32 (s_len s + s_newlen s)) np np (s_max s) (s_new s) (s_newlen s)) (d_segs c))
                   (d_numbps c) (d_mb c) (d_lenbits c) (u32 (d_new c - s_new s)) (d_chunks c ++ [chunk]) in
      let data := skipn (Z.to_nat (s_newlen s)) data in
      if 0 <? d_new c then read_segs fuel (S k) c data else Some (c, data)
  end.

(** t2.rs:1422-1542 *)
Definition read_block (c : dblk) (data : list Z) : option (dblk * list Z) :=
  if d_new c =? 0 then Some (c, data) else
  let k :=
    if (d_numsegs c =? 0)%nat then 0%nat
    else
      let s := nth (d_numsegs c - 1) (d_segs c) seg0 in
      if s_passes s =? s_max s then d_numsegs c else (d_numsegs c - 1)%nat in
  match read_segs (S (Z.to_nat (d_new c))) k c data with
  | None => None
  | Some (c, data) =>
      Some (mkD (d_numsegs c) (d_numsegs c) (d_segs c) (d_numbps c) (d_mb c) (d_lenbits c) (d_new c) (d_chunks c), data)
  end.

Fixpoint read_blocks (l : list dblk) (data : list Z) : option (list dblk * list Z) :=
  match l with
  | [] => Some ([], data)
  | c :: l =>
      match read_block c data with
      | None => None
      | Some (c, data) =>
          match read_blocks l data with
          | None => None
          | Some (l, data) => Some (c :: l, data)
          end
      end
  end.

(** t2.rs:1390-1545 [opj_t2_read_packet_data] *)
Fixpoint read_data (l : list dband) (data : list Z) : option (list dband * list Z) :=
  match l with
  | [] => Some ([], data)
  | b :: l =>
      match read_blocks (db_blocks b) data with
      | None => None
      | Some (bl, data) =>
          match read_data l data with
          | None => None
          | Some (l, data) => Some (mkDB (db_numbps b) (db_incl b) (db_imsb b) bl :: l, data)
          end
      end
  end.

(** t2.rs:535-589 [opj_t2_decode_packet]: new state and the bytes left. *)
Definition decode_packet (sty csty : Z) (lay : nat) (bs : list dband) (data : list Z)
  : option (list dband * list Z) :=
  match read_header sty csty lay bs data with
  | None => None
  | Some (bs, false, data) => Some (bs, data)
  | Some (bs, true, data) => read_data bs data
  end.

(** ** Skipping *)

(** t2.rs:1605-1645 in strict mode, the loop over the segments of a block whose
    packet is not wanted; [n] bytes are skipped so far, [max] are there. *)
Fixpoint skip_segs (fuel : nat) (k : nat) (c : dblk) (n max : Z) : option (dblk * Z) :=
  match fuel with
  | O => None
  | S fuel =>
      let s := nth k (d_segs c) seg0 in
      if (u32 (n + s_newlen s) <? n) || (max <? u32 (n + s_newlen s)) then None else
      let n := u32 (n + s_newlen s) in
      let np := u32 (s_passes s + s_new s) in
      let c := mkD (S k) (d_realsegs c)
                   (set_seg k (mkSeg (s_len s) np (s_real s) (s_max s) (s_new s) (s_newlen s)) (d_segs c))
                   (d_numbps c) (d_mb c) (d_lenbits c) (u32 (d_new c - s_new s)) (d_chunks c) in
      if 0 <? d_new c then skip_segs fuel (S k) c n max else Some (c, n)
  end.

(** t2.rs:1586-1648 *)
Definition skip_block (c : dblk) (n max : Z) : option (dblk * Z) :=
  if d_new c =? 0 then Some (c, n) else
  let k :=
    if (d_numsegs c =? 0)%nat then 0%nat
    else
      let s := nth (d_numsegs c - 1) (d_segs c) seg0 in
      if s_passes s =? s_max s then d_numsegs c else (d_numsegs c - 1)%nat in
  skip_segs (S (Z.to_nat (d_new c))) k c n max.

Fixpoint skip_blocks (l : list dblk) (n max : Z) : option (list dblk * Z) :=
  match l with
  | [] => Some ([], n)
  | c :: l =>
      match skip_block c n max with
      | None => None
      | Some (c, n) =>
          match skip_blocks l n max with
          | None => None
          | Some (l, n) => Some (c :: l, n)
          end
      end
  end.

(** t2.rs:1556-1655 [opj_t2_skip_packet_data] *)
Fixpoint skip_data (l : list dband) (n max : Z) : option (list dband * Z) :=
  match l with
  | [] => Some ([], n)
  | b :: l =>
      match skip_blocks (db_blocks b) n max with
      | None => None
      | Some (bl, n) =>
          match skip_data l n max with
          | None => None
          | Some (l, n) => Some (mkDB (db_numbps b) (db_incl b) (db_imsb b) bl :: l, n)
          end
      end
  end.

(** t2.rs:946-1000 [opj_t2_skip_packet]: new state and the bytes left. *)
Definition skip_packet (sty csty : Z) (lay : nat) (bs : list dband) (data : list Z)
  : option (list dband * list Z) :=
  match read_header sty csty lay bs data with
  | None => None
  | Some (bs, false, data) => Some (bs, data)
  | Some (bs, true, data) =>
      match skip_data bs 0 (Z.of_nat (List.length data)) with
      | None => None
      | Some (bs, n) => Some (bs, skipn (Z.to_nat n) data)
      end
  end.

(** ** Where blocks get their passes and layers from *)

(** t1.rs:2691-2720 [opj_t1_enc_is_term_pass] for pass [k] of a block of [numbps]
    bit-planes; the coding loop (t1.rs:2792, 2802-2879) begins with the cleanup
    pass of the topmost bit-plane and goes through three passes per bit-plane
    after it. *)
Definition pass_type (k : nat) : nat := ((k + 2) mod 3)%nat.
Definition pass_bpno (numbps : Z) (k : nat) : Z := numbps - 1 - Z.of_nat ((k + 2) / 3).
Definition is_term (sty numbps : Z) (k : nat) : bool :=
  if (pass_type k =? 2)%nat && (pass_bpno numbps k =? 0) then true
  else if negb (Z.land sty 4 =? 0) then true
  else if negb (Z.land sty 1 =? 0) then
    if (pass_bpno numbps k =? numbps - 4) && (pass_type k =? 2)%nat then true
    else (pass_bpno numbps k <? numbps - 4) && (0 <? pass_type k)%nat
  else false.

(** t1.rs:2914-2920: pass lengths are differences of the passes' cumulative
    rates. *)
Definition rate_upto (rates : list Z) (n : nat) : Z := match n with O => 0 | S n => nth n rates 0 end.
Definition pass_lens (rates : list Z) : list Z :=
  map (fun k => u32 (rate_upto rates (S k) - rate_upto rates k)) (seq 0 (List.length rates)).

(** tcd.rs:145-177 in [opj_tcd_makelayer] and 324-348 in
    [opj_tcd_makelayer_fixed]: the layer that takes the passes from [a]
    ([numpassesinlayers]) up to [n]. *)
Definition make_layer (rates data : list Z) (a n : nat) : layer :=
  let len := u32 (rate_upto rates n - rate_upto rates a) in
  mkLayer (n - a) (if (n - a =? 0)%nat then [] else firstn (Z.to_nat len) (skipn (Z.to_nat (rate_upto rates a)) data)).

(** The layers in turn, as rate allocation calls for them (tcd.rs:59-204,
    206-368): [cuts] has the number of passes in the layers so far. *)
Fixpoint make_layers (rates data : list Z) (a : nat) (cuts : list nat) : list layer :=
  match cuts with
  | [] => []
  | n :: cuts => make_layer rates data a n :: make_layers rates data n cuts
  end.

(** t1.rs:2887-2901: going from the last pass to the first, no rate exceeds the
    bytes written ([numbytes]) or a later rate. *)
Fixpoint cap_rates (rates : list Z) (numbytes : Z) : list Z * Z :=
  match rates with
  | [] => ([], numbytes)
  | r :: l => let '(l, last) := cap_rates l numbytes in if last <? r then (last :: l, last) else (r :: l, r)
  end.
(** t1.rs:2903-2913: a pass does not end in a byte 255.  [None] is the failed
    assertion. *)
Fixpoint trim_rates (data rates : list Z) : option (list Z) :=
  match rates with
  | [] => Some []
  | r :: l =>
      if r <=? 0 then None else
      match trim_rates data l with
      | None => None
      | Some l => Some ((if nth (Z.to_nat (r - 1)) data 0 =? 255 then r - 1 else r) :: l)
      end
  end.
