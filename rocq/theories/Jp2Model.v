(** Model of the JP2 file format layer, openjp2-rs/src/jp2.rs: boxes, reading
    and writing of the file header, and the colour processing after decoding
    (palette, channel definitions).

    A stream being read is the list of bytes left in a file; the code-stream is
    an opaque list of bytes.  [Refused] is a false result; what has already been
    stored in the codec by then is dropped.  [Panic] is a failed assertion,
    [expect], index or slice, and, when [checks] is set (debug profile), an
    arithmetic overflow.  Box types are their 32-bit codes: the tables of
    [Jp2BoxType] (consts.rs:215-337) are inverse to each other.  Not modelled:
    messages, allocation failure, the code-stream reader and writer. *)

From Coq Require Import ZArith List Bool.
From Verif Require Import Ints CioModel.
From Verif Require HdrModel.
Import ListNotations.
Local Open Scope Z_scope.

Inductive res (A : Type) : Type := Got (a : A) | Refused | Panic.
Arguments Got {A}. Arguments Refused {A}. Arguments Panic {A}.
Definition bind {A B} (r : res A) (k : A -> res B) : res B :=
  match r with Got a => k a | Refused => Refused | Panic => Panic end.

(** byteorder: big endian fields of 1, 2, 3 or 4 bytes. *)
Notation be := HdrModel.be.
Notation rd := HdrModel.rd.
(** [buf.read_..().expect("Buffer should have enough data")] *)
Definition want {A} (n : nat) (d : list Z) (k : Z -> list Z -> res A) : res A :=
  match rd n d with None => Panic | Some (v, d) => k v d end.
(** [u32::to_ne_bytes] on a little-endian machine. *)
Definition ne (v : Z) : list Z := rev (to_be4 v).
Definition u8 (v : Z) : Z := v mod 256.
Definition u16 (v : Z) : Z := v mod 65536.
Definition zlen {A} (l : list A) : Z := Z.of_nat (length l).
Definition is_nil {A} (l : list A) : bool := match l with [] => true | _ => false end.

(** consts.rs:261-286 *)
Definition JP := 1783636000. Definition FTYP := 1718909296. Definition JP2H := 1785737832.
Definition IHDR := 1768449138. Definition COLR := 1668246642. Definition JP2C := 1785737827.
Definition PCLR := 1885564018. Definition CMAP := 1668112752. Definition CDEF := 1667523942.
Definition BPCC := 1651532643. Definition JP2 := 1785737760.
(** consts.rs:289-309 *)
Definition file_header (t : Z) : bool := existsb (Z.eqb t) [JP; FTYP; JP2H].
Definition image_header (t : Z) : bool := existsb (Z.eqb t) [IHDR; COLR; BPCC; PCLR; CMAP; CDEF].

(** types.rs:242-315 [opj_jp2], [opj_jp2_color], ... *)
Record ihdr := mkIhdr { i_h : Z; i_w : Z; i_bpc : Z; i_c : Z; i_unkc : Z; i_ipr : Z }.
Record colour := mkColour {
  c_meth : Z; c_precedence : Z; c_approx : Z; c_enumcs : Z; c_icc : option (list Z); c_icc_len : Z; c_has : bool }.
Record def := mkDef { d_cn : Z; d_typ : Z; d_asoc : Z }.
Record mapping := mkMap { m_cmp : Z; m_mtyp : Z; m_pcol : Z }.
Record palette := mkPalette {
  p_entries : list Z; p_channel : list (Z * Z); p_cmap : list mapping; p_nr_entries : Z; p_nr_channels : Z }.
Record ftyp := mkFtyp { f_brand : Z; f_minv : Z; f_cl : list Z }.
Record jp2 := mkJp2 {
  j_ihdr : ihdr; j_bpcc : list Z; j_colour : colour; j_cdef : option (list def); j_pclr : option palette;
  j_ftyp : ftyp; j_state : Z; j_img : Z; j_has_jp2h : bool; j_has_ihdr : bool;
  (** [m_cp.allow_different_bit_depth_sign], [ihdr_w], [ihdr_h] of the code-stream reader *)
  j_j2k : bool * Z * Z }.
(** jp2.rs:1993-2045 [opj_jp2_create] *)
Definition created : jp2 :=
  mkJp2 (mkIhdr 0 0 0 0 0 0) [] (mkColour 0 0 0 0 None 0 false) None None (mkFtyp 0 0 []) 0 0 false false (false, 0, 0).

Definition set_ihdr (j : jp2) i n j2k :=
  mkJp2 i (repeat 0 n) (j_colour j) (j_cdef j) (j_pclr j) (j_ftyp j) (j_state j) (j_img j) (j_has_jp2h j) true j2k.
Definition set_bpcc (j : jp2) l :=
  mkJp2 (j_ihdr j) l (j_colour j) (j_cdef j) (j_pclr j) (j_ftyp j) (j_state j) (j_img j) (j_has_jp2h j) (j_has_ihdr j) (j_j2k j).
Definition set_colour (j : jp2) c :=
  mkJp2 (j_ihdr j) (j_bpcc j) c (j_cdef j) (j_pclr j) (j_ftyp j) (j_state j) (j_img j) (j_has_jp2h j) (j_has_ihdr j) (j_j2k j).
Definition set_cdef (j : jp2) l :=
  mkJp2 (j_ihdr j) (j_bpcc j) (j_colour j) (Some l) (j_pclr j) (j_ftyp j) (j_state j) (j_img j) (j_has_jp2h j) (j_has_ihdr j) (j_j2k j).
Definition set_pclr (j : jp2) p :=
  mkJp2 (j_ihdr j) (j_bpcc j) (j_colour j) (j_cdef j) (Some p) (j_ftyp j) (j_state j) (j_img j) (j_has_jp2h j) (j_has_ihdr j) (j_j2k j).
Definition set_ftyp (j : jp2) f :=
  mkJp2 (j_ihdr j) (j_bpcc j) (j_colour j) (j_cdef j) (j_pclr j) f (j_state j) (j_img j) (j_has_jp2h j) (j_has_ihdr j) (j_j2k j).
Definition set_state (j : jp2) s :=
  mkJp2 (j_ihdr j) (j_bpcc j) (j_colour j) (j_cdef j) (j_pclr j) (j_ftyp j) s (j_img j) (j_has_jp2h j) (j_has_ihdr j) (j_j2k j).
Definition set_img (j : jp2) s :=
  mkJp2 (j_ihdr j) (j_bpcc j) (j_colour j) (j_cdef j) (j_pclr j) (j_ftyp j) (j_state j) s (j_has_jp2h j) (j_has_ihdr j) (j_j2k j).
Definition set_jp2h (j : jp2) :=
  mkJp2 (j_ihdr j) (j_bpcc j) (j_colour j) (j_cdef j) (j_pclr j) (j_ftyp j) (j_state j) (j_img j) true (j_has_ihdr j) (j_j2k j).

(** jp2.rs:14-25 *)
Definition UNKNOWN := 2147483647. Definition CODESTREAM := 8. Definition HEADER := 4.
Definition FILE_TYPE := 2. Definition SIGNATURE := 1.
Definition has (s flag : Z) : bool := negb (Z.land s flag =? 0).

(** ** Reading *)

(** jp2.rs:58-97 [Jp2BoxHeader::read]: length, type and header length.  [None]
    is an error, after the given bytes; a short read uses up what is left. *)
Record box := mkBox { b_length : Z; b_ty : Z; b_header : Z }.
Definition read_box (max_size : Z) (d : list Z) : option box * list Z :=
  match rd 4 d with
  | None => (None, [])
  | Some (len, d) =>
      match rd 4 d with
      | None => (None, [])
      | Some (ty, d) =>
          if len =? 0 then
            if max_size =? 0 then (None, d)
            else if 2 ^ 32 - 1 <? max_size then (None, d)
            else (Some (mkBox max_size ty 8), d)
          else if len =? 1 then
            match rd 4 d with
            | None => (None, [])
            | Some (high, d) =>
                match rd 4 d with
                | None => (None, [])
                | Some (low, d) => if negb (high =? 0) then (None, d) else (Some (mkBox low ty 16), d)
                end
            end
          else (Some (mkBox len ty 8), d)
      end
  end.

Section Reading.
(** Arithmetic overflow panics (debug profile). *)
Variable checks : bool.

(** jp2.rs:54-56 [content_length], a plain subtraction. *)
Definition content_length {A} (b : box) (k : Z -> res A) : res A :=
  if checks && (b_length b <? b_header b) then Panic else k (u32 (b_length b - b_header b)).

(** jp2.rs:171-238 [opj_jp2_read_ihdr] *)
Definition read_ihdr (j : jp2) (b : list Z) : res jp2 :=
  if negb (is_nil (j_bpcc j)) then Got j
  else if negb (zlen b =? 14) then Refused
  else want 4 b (fun h b => want 4 b (fun w b => want 2 b (fun n b =>
    if (h <? 1) || (w <? 1) || (n <? 1) then Refused
    else if 16384 <? n then Refused
    else want 1 b (fun bpc b => want 1 b (fun c b => want 1 b (fun unkc b => want 1 b (fun ipr _ =>
      Got (set_ihdr j (mkIhdr h w bpc c unkc ipr) (Z.to_nat n) (bpc =? 255, w, h))))))))).

(** jp2.rs:286-303 [opj_jp2_read_bpcc] *)
Fixpoint read_bytes (n : nat) (b : list Z) : res (list Z) :=
  match n with
  | O => Got []
  | S n => want 1 b (fun v b => bind (read_bytes n b) (fun l => Got (v :: l)))
  end.
Definition read_bpcc (j : jp2) (b : list Z) : res jp2 :=
  if negb (zlen b =? zlen (j_bpcc j)) then Refused
  else bind (read_bytes (length (j_bpcc j)) b) (fun l => Got (set_bpcc j l)).

(** jp2.rs:630-686 [opj_jp2_read_pclr]; the capacity of the vector of entries is
    the square of the number of columns, computed in a byte. *)
Definition width (channel : Z * Z) : nat := Z.to_nat (Z.min 4 (Z.shiftr (fst channel + 7) 3)).
Fixpoint read_channels (n : nat) (b : list Z) : res (list (Z * Z) * list Z) :=
  match n with
  | O => Got ([], b)
  | S n => want 1 b (fun v b =>
      bind (read_channels n b) (fun '(l, b) => Got ((Z.land v 127 + 1, if Z.land v 128 =? 0 then 0 else 1) :: l, b)))
  end.
Fixpoint read_row (cs : list (Z * Z)) (b : list Z) : res (list Z * list Z) :=
  match cs with
  | [] => Got ([], b)
  | c :: cs =>
      match rd (width c) b with
      | None => Refused
      | Some (v, b) => bind (read_row cs b) (fun '(l, b) => Got (v :: l, b))
      end
  end.
Fixpoint read_rows (n : nat) (cs : list (Z * Z)) (b : list Z) : res (list Z) :=
  match n with
  | O => Got []
  | S n => bind (read_row cs b) (fun '(l, b) => bind (read_rows n cs b) (fun l' => Got (l ++ l')))
  end.
Definition read_pclr (j : jp2) (b : list Z) : res jp2 :=
  match j_pclr j with
  | Some _ => Refused
  | None =>
      if zlen b <? 3 then Refused
      else want 2 b (fun entries b =>
        if (entries =? 0) || (1024 <? entries) then Refused
        else want 1 b (fun channels b =>
          if channels =? 0 then Refused
          else if zlen b <? channels then Refused
          else if checks && (255 <? channels * channels) then Panic
          else bind (read_channels (Z.to_nat channels) b) (fun '(cs, b) =>
            bind (read_rows (Z.to_nat entries) cs b) (fun l =>
              Got (set_pclr j (mkPalette l cs [] entries channels))))))
  end.

(** jp2.rs:696-729 [opj_jp2_read_cmap] *)
Fixpoint read_maps (n : nat) (b : list Z) : res (list mapping) :=
  match n with
  | O => Got []
  | S n => want 2 b (fun cmp b => want 1 b (fun mtyp b => want 1 b (fun pcol b =>
      bind (read_maps n b) (fun l => Got (mkMap cmp mtyp pcol :: l)))))
  end.
Definition with_cmap (p : palette) (l : list mapping) : palette :=
  mkPalette (p_entries p) (p_channel p) l (p_nr_entries p) (p_nr_channels p).
Definition read_cmap (j : jp2) (b : list Z) : res jp2 :=
  match j_pclr j with
  | None => Refused
  | Some p =>
      if negb (is_nil (p_cmap p)) then Refused
      else if zlen b <? p_nr_channels p * 4 then Refused
      else bind (read_maps (Z.to_nat (p_nr_channels p)) b) (fun l => Got (set_pclr j (with_cmap p l)))
  end.

(** jp2.rs:801-847 [opj_jp2_read_cdef] *)
Fixpoint read_defs (n : nat) (b : list Z) : res (list def) :=
  match n with
  | O => Got []
  | S n => want 2 b (fun cn b => want 2 b (fun typ b => want 2 b (fun asoc b =>
      bind (read_defs n b) (fun l => Got (mkDef cn typ asoc :: l)))))
  end.
Definition read_cdef (j : jp2) (b : list Z) : res jp2 :=
  match j_cdef j with
  | Some _ => Refused
  | None =>
      if zlen b <? 2 then Refused
      else want 2 b (fun n b =>
        if n =? 0 then Refused
        else if zlen b <? n * 6 then Refused
        else bind (read_defs (Z.to_nat n) b) (fun l => Got (set_cdef j l)))
  end.

(** jp2.rs:857-960 [opj_jp2_read_colr] *)
Definition lab (b : list Z) : res (list Z) :=
  if zlen b =? 28 then
    want 4 b (fun rl b => want 4 b (fun ol b => want 4 b (fun ra b => want 4 b (fun oa b => want 4 b (fun rb b =>
    want 4 b (fun ob b => want 4 b (fun il _ =>
      Got (ne 14 ++ ne 0 ++ ne rl ++ ne ol ++ ne ra ++ ne oa ++ ne rb ++ ne ob ++ ne il))))))))
  else Got (ne 14 ++ (if is_nil b then [] else ne 1145390592) ++
            ne 0 ++ ne 0 ++ ne 0 ++ ne 0 ++ ne 0 ++ ne 0 ++ ne 4470064).
Definition read_colr (j : jp2) (b : list Z) : res jp2 :=
  if zlen b <? 3 then Refused
  else
    let c := j_colour j in
    if c_has c then Got j
    else want 1 b (fun meth b => want 1 b (fun precedence b => want 1 b (fun approx b =>
      if meth =? 1 then
        if zlen b <? 4 then Refused
        else want 4 b (fun enumcs b =>
          if enumcs =? 14 then
            bind (lab b) (fun icc => Got (set_colour j (mkColour meth precedence approx enumcs (Some icc) 0 true)))
          else Got (set_colour j (mkColour meth precedence approx enumcs (c_icc c) (c_icc_len c) true)))
      else if meth =? 2 then
        Got (set_colour j (mkColour meth precedence approx (c_enumcs c) (Some b) (u32 (zlen b)) true))
      else Got (set_colour j (mkColour meth precedence approx (c_enumcs c) (c_icc c) (c_icc_len c) (c_has c)))))).

(** jp2.rs:104-137 [read_content], the boxes of an image header. *)
Definition read_image (t : Z) (j : jp2) (b : list Z) : res jp2 :=
  if t =? IHDR then read_ihdr j b
  else if t =? COLR then read_colr j b
  else if t =? BPCC then read_bpcc j b
  else if t =? PCLR then read_pclr j b
  else if t =? CDEF then read_cdef j b
  else if t =? CMAP then read_cmap j b
  else Got j.

(** jp2.rs:1742-1797 [opj_jp2_read_jp2h] *)
Fixpoint jp2h_boxes (fuel : nat) (ihdr : bool) (j : jp2) (b : list Z) : res (bool * jp2) :=
  match b with
  | [] => Got (ihdr, j)
  | _ =>
      match fuel with
      | O => Panic
      | S fuel =>
          match read_box 0 b with
          | (None, _) => Refused
          | (Some h, b) =>
              if b_length h <? b_header h then Refused
              else content_length h (fun n =>
                if zlen b <? n then Refused
                else
                  let content := firstn (Z.to_nat n) b in
                  let rest := skipn (Z.to_nat n) b in
                  bind (if image_header (b_ty h) then read_image (b_ty h) j content
                        else Got (set_img j (Z.lor (j_img j) UNKNOWN)))
                    (fun j => jp2h_boxes fuel (ihdr || (b_ty h =? IHDR)) j rest))
          end
      end
  end.
Definition read_jp2h (j : jp2) (b : list Z) : res jp2 :=
  if negb (has (j_state j) FILE_TYPE) then Refused
  else bind (jp2h_boxes (length b) false (set_img j 0) b) (fun '(ihdr, j) =>
    if negb ihdr then Refused else Got (set_jp2h (set_state j (Z.lor (j_state j) HEADER)))).

(** jp2.rs:1637-1665 [opj_jp2_read_jp] *)
Definition MAGIC := 218793738.
Definition read_jp (j : jp2) (b : list Z) : res jp2 :=
  if negb (j_state j =? 0) then Refused
  else if negb (zlen b =? 4) then Refused
  else want 4 b (fun magic _ =>
    if negb (magic =? MAGIC) then Refused else Got (set_state j (Z.lor (j_state j) SIGNATURE))).

(** jp2.rs:1668-1703 [opj_jp2_read_ftyp] *)
Fixpoint read_words (n : nat) (b : list Z) : res (list Z) :=
  match n with
  | O => Got []
  | S n => want 4 b (fun v b => bind (read_words n b) (fun l => Got (v :: l)))
  end.
Definition read_ftyp (j : jp2) (b : list Z) : res jp2 :=
  if negb (j_state j =? SIGNATURE) then Refused
  else if zlen b <? 8 then Refused
  else want 4 b (fun brand b => want 4 b (fun minv b =>
    if negb (Z.land (zlen b) 3 =? 0) then Refused
    else bind (read_words (Z.to_nat (Z.shiftr (zlen b) 2)) b) (fun cl =>
      let j := set_ftyp j (mkFtyp brand minv cl) in
      Got (set_state j (Z.lor (j_state j) FILE_TYPE))))).

(** jp2.rs:104-137 [read_content] *)
Definition read_content (t : Z) (j : jp2) (b : list Z) : res jp2 :=
  if t =? JP then read_jp j b
  else if t =? FTYP then read_ftyp j b
  else if t =? JP2H then read_jp2h j b
  else read_image t j b.

(** jp2.rs:1449-1590 [opj_jp2_read_header_procedure], with [from_stream]
    (jp2.rs:39-47) and [opj_stream_skip] (stream.rs:405-433, 532-548), which fails
    past the end of the file: the codec and the bytes left. *)
Fixpoint header_boxes (fuel : nat) (j : jp2) (d : list Z) : res (jp2 * list Z) :=
  match fuel with
  | O => Panic
  | S fuel =>
      match read_box (zlen d) d with
      | (None, d) => Got (j, d)
      | (Some h, d) =>
          if b_ty h =? JP2C then
            if has (j_state j) HEADER then Got (set_state j (Z.lor (j_state j) CODESTREAM), d) else Refused
          else if b_length h =? 0 then Refused
          else if b_length h <? b_header h then Refused
          else content_length h (fun n =>
            let content := firstn (Z.to_nat n) d in
            let rest := skipn (Z.to_nat n) d in
            let skip j k := if zlen d <? n then k j else header_boxes fuel j rest in
            if file_header (b_ty h) || image_header (b_ty h) then
              if negb (file_header (b_ty h)) && negb (has (j_state j) HEADER) then
                skip (set_state j (Z.lor (j_state j) UNKNOWN)) (fun _ => Refused)
              else if zlen d <? n then Refused
              else bind (read_content (b_ty h) j content) (fun j => header_boxes fuel j rest)
            else if negb (has (j_state j) SIGNATURE) then Refused
            else if negb (has (j_state j) FILE_TYPE) then Refused
            else skip (set_state j (Z.lor (j_state j) UNKNOWN))
                   (fun j => if has (j_state j) CODESTREAM then Got (j, d) else Refused))
      end
  end.

(** jp2.rs:1799-1829 [opj_jp2_read_header] up to the code-stream's header. *)
Definition read_header (d : list Z) : res (jp2 * list Z) :=
  bind (header_boxes (S (length d)) created d) (fun '(j, d) =>
    if negb (j_has_jp2h j) then Refused else if negb (j_has_ihdr j) then Refused else Got (j, d)).

End Reading.

(** jp2.rs:1838-1856: the colour space reported (openjpeg.rs OPJ_CLRSPC). *)
Definition colour_space (j : jp2) : Z :=
  let e := c_enumcs (j_colour j) in
  if e =? 16 then 1 else if e =? 17 then 2 else if e =? 18 then 3 else if e =? 24 then 4 else if e =? 12 then 5 else -1.

(** ** Writing *)

(** What the encoder takes from the image (image.rs [opj_image], [opj_image_comp]). *)
Record channel := mkChannel { ch_prec : Z; ch_sgnd : Z; ch_alpha : Z }.
Record image := mkImage {
  im_x0 : Z; im_y0 : Z; im_x1 : Z; im_y1 : Z; im_space : Z; im_icc_len : Z; im_comps : list channel }.

(** jp2.rs:1263-1300: whether a channel definition box can be made, and for how
    many colour channels. *)
Definition alphas (l : list channel) : list nat :=
  map fst (filter (fun p => negb (ch_alpha (snd p) =? 0)) (combine (seq 0 (length l)) l)).
Definition colours (enumcs : Z) (l : list channel) : option Z :=
  match alphas l with
  | [a] =>
      match (if (enumcs =? 16) || (enumcs =? 18) then Some 3 else if enumcs =? 17 then Some 1 else None) with
      | None => None
      | Some n =>
          if zlen l <? n + 1 then None
          else if Z.of_nat a <? n then None else Some n
      end
  | _ => None
  end.
(** jp2.rs:1301-1328 *)
Definition make_def (n : Z) (p : nat * channel) : def :=
  let cn := Z.of_nat (fst p) in
  if cn <? n then mkDef (u16 cn) 0 (u16 (cn + 1))
  else if negb (ch_alpha (snd p) =? 0) then mkDef (u16 cn) 1 0
  else mkDef (u16 cn) 65535 65535.

(** jp2.rs:1177-1333 [opj_jp2_setup_encoder]; [opj_j2k_setup_encoder] succeeds. *)
Definition setup_encoder (im : image) : res jp2 :=
  let l := im_comps im in
  if (zlen l <? 1) || (16384 <? zlen l) then Refused
  else match l with
  | [] => Panic
  | c0 :: others =>
      let depth0 := u32 (ch_prec c0 - 1) in
      let bpc := fold_left (fun b c => if negb (depth0 =? u32 (ch_prec c - 1)) then 255 else b) others
                   (u32 (depth0 + u32 (Z.shiftl (ch_sgnd c0) 7))) in
      let meth := if negb (im_icc_len im =? 0) then 2 else 1 in
      let enumcs :=
        if negb (im_icc_len im =? 0) then 0
        else if im_space im =? 1 then 16 else if im_space im =? 2 then 17 else if im_space im =? 3 then 18 else 0 in
      Got (mkJp2 (mkIhdr (u32 (im_y1 im - im_y0 im)) (u32 (im_x1 im - im_x0 im)) bpc 7 0 0)
             (map (fun c => u32 (u32 (ch_prec c - 1) + u32 (Z.shiftl (ch_sgnd c) 7))) l)
             (mkColour meth 0 0 enumcs None 0 false)
             (match colours enumcs l with None => None | Some n => Some (map (make_def n) (combine (seq 0 (length l)) l)) end)
             None (mkFtyp JP2 0 [JP2]) 0 0 false false (false, 0, 0))
  end.

(** jp2.rs:1407-1447 [opj_jp2_default_validation] (the stream can seek) *)
Definition validate (j : jp2) : bool :=
  (j_state j =? 0) && (j_img j =? 0) && negb (is_nil (f_cl (j_ftyp j))) && (0 <? i_h (j_ihdr j)) && (0 <? i_w (j_ihdr j)) &&
  forallb (fun b => Z.land b 127 <? 38) (j_bpcc j) && (0 <? c_meth (j_colour j)) && (c_meth (j_colour j) <? 3).

(** jp2.rs:99-102 [Jp2BoxHeader::write] of a box of [n] content bytes: the length
    starts as 8 (jp2.rs:34-36). *)
Definition write_box (ty n : Z) : list Z := be 4 (u32 (8 + n)) ++ be 4 ty.
(** jp2.rs:242-263 *)
Definition write_ihdr (j : jp2) : list Z :=
  let i := j_ihdr j in
  write_box IHDR 14 ++ be 4 (i_h i) ++ be 4 (i_w i) ++ be 2 (u16 (zlen (j_bpcc j))) ++
  [u8 (i_bpc i); u8 (i_c i); u8 (i_unkc i); u8 (i_ipr i)].
(** jp2.rs:267-275 *)
Definition write_bpcc (j : jp2) : list Z := write_box BPCC (zlen (j_bpcc j)) ++ map u8 (j_bpcc j).
(** jp2.rs:307-326 *)
Definition write_cdef (j : jp2) : res (list Z) :=
  match j_cdef j with
  | None => Refused
  | Some l =>
      if is_nil l then Panic
      else Got (write_box CDEF (u32 (2 + u32 (zlen l * 6))) ++ be 2 (u16 (zlen l)) ++
                flat_map (fun d => be 2 (d_cn d) ++ be 2 (d_typ d) ++ be 2 (d_asoc d)) l)
  end.
(** jp2.rs:330-365 *)
Definition write_colr (j : jp2) : res (list Z) :=
  let c := j_colour j in
  let meth := u8 (c_meth c) in
  if negb ((meth =? 1) || (meth =? 2)) then Panic
  else if (meth =? 2) && (c_icc_len c =? 0) then Panic
  else Got (write_box COLR (u32 (3 + (if meth =? 1 then 4 else c_icc_len c))) ++
            [meth; u8 (c_precedence c); u8 (c_approx c)] ++
            (if meth =? 1 then be 4 (c_enumcs c) else match c_icc c with Some l => l | None => [] end)).
(** jp2.rs:1016-1058 [opj_jp2_write_jp2h] *)
Definition write_jp2h (j : jp2) : res (list Z) :=
  bind (write_colr j) (fun colr =>
  bind (match j_cdef j with None => Got [] | Some _ => write_cdef j end) (fun cdef =>
    let body := write_ihdr j ++ (if i_bpc (j_ihdr j) =? 255 then write_bpcc j else []) ++ colr ++ cdef in
    Got (write_box JP2H (zlen body) ++ body))).
(** jp2.rs:1067-1090 *)
Definition write_ftyp (j : jp2) : list Z :=
  let f := j_ftyp j in
  write_box FTYP (u32 (8 + u32 (4 * zlen (f_cl f)))) ++ be 4 (f_brand f) ++ be 4 (f_minv f) ++ flat_map (be 4) (f_cl f).
(** jp2.rs:1135-1154 *)
Definition write_jp : list Z := write_box JP 4 ++ be 4 MAGIC.

(** jp2.rs:1599-1629, 1343-1390, 1100-1127, 1705-1733 ([opj_jp2_start_compress],
    [opj_jp2_end_compress], [opj_jp2_write_jp2c], [opj_jp2_skip_jp2c],
    [opj_jpip_skip_iptr]): the file written around the code-stream [cs].  Room for
    the code-stream's box header is left and filled in at the end; the room left
    for the JPIP index stays empty (zero bytes in a file). *)
Definition write_file (jpip : bool) (j : jp2) (cs : list Z) : res (list Z) :=
  if negb (validate j) then Refused
  else bind (write_jp2h j) (fun jp2h =>
    Got (write_jp ++ write_ftyp j ++ jp2h ++ (if jpip then repeat 0 24 else []) ++ write_box JP2C (zlen cs) ++ cs)).

(** ** After decoding *)

(** jp2.rs:367-405 [opj_jp2_check_color], channel definitions. *)
Definition check_cdef (numcomps : Z) (cdef : option (list def)) (pclr : option palette) : bool :=
  match cdef with
  | None => true
  | Some l =>
      let n := match pclr with
               | Some p => if negb (is_nil (p_cmap p)) then p_nr_channels p else numcomps
               | None => numcomps
               end in
      forallb (fun d => negb (n <=? d_cn d) &&
                        negb (negb (d_asoc d =? 65535) && (0 <? d_asoc d) && (n <=? d_asoc d - 1))) l &&
      forallb (fun c : nat => existsb (fun d => d_cn d =? Z.of_nat c) l) (seq 1 (Z.to_nat (n - 1)))
  end.

(** jp2.rs:418-536 [opj_jp2_check_color], component mapping. *)
Definition mem_z (x : Z) (l : list Z) : bool := existsb (Z.eqb x) l.
Definition check_map (n : Z) (st : bool * list Z) (im : nat * mapping) : bool * list Z :=
  let '(sane, used) := st in
  let '(i, m) := im in
  if negb (m_mtyp m =? 0) && negb (m_mtyp m =? 1) then (false, used)
  else if n <=? m_pcol m then (false, used)
  else if mem_z (m_pcol m) used && (m_mtyp m =? 1) then (false, used)
  else if (m_mtyp m =? 0) && negb (m_pcol m =? 0) then (false, used)
  else if (m_mtyp m =? 1) && negb (m_pcol m =? Z.of_nat i) then (false, used)
  else (sane, m_pcol m :: used).
Definition numbered {A} (l : list A) : list (nat * A) := combine (seq 0 (length l)) l.
Definition check_pclr (numcomps : Z) (p : palette) : option palette :=
  let n := p_nr_channels p in
  let l := p_cmap p in
  if negb (zlen l =? n) then Some p
  else
    let inside := forallb (fun m => negb (numcomps <=? m_cmp m)) l in
    let '(sane, used) := fold_left (check_map n) (numbered l) (inside, []) in
    let covered := forallb (fun im : nat * mapping =>
        negb (negb (mem_z (Z.of_nat (fst im)) used) && negb (m_mtyp (snd im) =? 0))) (numbered l) in
    let sane := sane && covered in
    if sane && (numcomps =? 1) && negb (forallb (fun im : nat * mapping => mem_z (Z.of_nat (fst im)) used) (numbered l))
    then Some (with_cmap p (map (fun im : nat * mapping => mkMap (m_cmp (snd im)) 1 (u8 (Z.of_nat (fst im)))) (numbered l)))
    else if sane then Some p else None.

(** Components of the decoded image (image.rs:36-52 [opj_image_comp]): size,
    precision, sign, alpha and the address of the samples (0 is null); other
    fields are copied along.  The heap maps the address of a block that is
    allocated to its samples. *)
Record icomp := mkIcomp { ic_w : Z; ic_h : Z; ic_prec : Z; ic_sgnd : Z; ic_alpha : Z; ic_data : Z }.
Definition heap := Z -> option (list Z).
Definition store (m : heap) (a : Z) (v : option (list Z)) : heap := fun x => if x =? a then v else m x.
Definition s32 (v : Z) : Z := (v + 2 ^ 31) mod 2 ^ 32 - 2 ^ 31.

(** jp2.rs:601-613: one sample through the palette; [None] is an index out of
    bounds. *)
Definition look_up (p : palette) (pcol k : Z) : option Z :=
  let top := p_nr_entries p - 1 in
  let k := if k <? 0 then 0 else if top <? k then top else k in
  let i := k * p_nr_channels p + pcol in
  if i <? 0 then None else option_map s32 (nth_error (p_entries p) (Z.to_nat i)).
Fixpoint look_ups (p : palette) (pcol : Z) (l : list Z) : option (list Z) :=
  match l with
  | [] => Some []
  | k :: l => match look_up p pcol k, look_ups p pcol l with Some v, Some l => Some (v :: l) | _, _ => None end
  end.

(** jp2.rs:549-568 *)
Fixpoint check_sources (comps : list icomp) (l : list (nat * mapping)) : res unit :=
  match l with
  | [] => Got tt
  | (i, m) :: l =>
      match nth_error comps (Z.to_nat (m_cmp m)) with
      | None => Panic
      | Some c =>
          if ic_data c =? 0 then Refused
          else if negb (m_mtyp m =? 0) && negb (Z.of_nat i =? m_pcol m) then Refused
          else check_sources comps l
      end
  end.

(** jp2.rs:582-617: the new component is a copy of the old one, including the
    address of its samples; source and destination are the same block. *)
Definition map_channel (comps : list icomp) (p : palette) (m : heap) (x : mapping * (Z * Z)) : res (heap * icomp) :=
  let '(cm, ch) := x in
  match nth_error comps (Z.to_nat (m_cmp cm)) with
  | None => Panic
  | Some c =>
      let new := mkIcomp (ic_w c) (ic_h c) (fst ch) (snd ch) (ic_alpha c) (ic_data c) in
      match m (ic_data c) with
      | None => Panic
      | Some src =>
          if m_mtyp cm =? 0 then Got (m, new)
          else match look_ups p (m_pcol cm) src with
               | None => Panic
               | Some dst => Got (store m (ic_data c) (Some dst), new)
               end
      end
  end.
Fixpoint map_channels (comps : list icomp) (p : palette) (m : heap) (l : list (mapping * (Z * Z))) : res (heap * list icomp) :=
  match l with
  | [] => Got (m, [])
  | x :: l =>
      bind (map_channel comps p m x) (fun '(m, c) =>
      bind (map_channels comps p m l) (fun '(m, cs) => Got (m, c :: cs)))
  end.
(** image.rs:223-237, 319-325: the image holding the old components is dropped. *)
Definition drop_comps (m : heap) (comps : list icomp) : heap :=
  fold_left (fun m c => if ic_data c =? 0 then m else store m (ic_data c) None) comps m.
(** jp2.rs:538-620 [opj_jp2_apply_pclr]; new components beyond the mappings are
    zero. *)
Definition apply_pclr (m : heap) (comps : list icomp) (p : palette) : res (heap * list icomp) :=
  bind (check_sources comps (numbered (p_cmap p))) (fun _ =>
  bind (map_channels comps p m (firstn (Z.to_nat (p_nr_channels p)) (combine (p_cmap p) (p_channel p)))) (fun '(m, cs) =>
    Got (drop_comps m comps, cs ++ repeat (mkIcomp 0 0 0 0 0 0) (Z.to_nat (p_nr_channels p) - length cs)))).

(** jp2.rs:731-798 [opj_jp2_apply_cdef] over the definitions from index [i] on;
    [set_nth] out of range does nothing, but the indices have been checked. *)
Fixpoint set_nth {A} (l : list A) (n : nat) (v : A) : list A :=
  match l, n with [], _ => [] | _ :: l, O => v :: l | x :: l, S n => x :: set_nth l n v end.
Definition with_alpha (c : icomp) (a : Z) : icomp := mkIcomp (ic_w c) (ic_h c) (ic_prec c) (ic_sgnd c) a (ic_data c).
Definition swap_def (cn acn : Z) (d : def) : def :=
  if d_cn d =? cn then mkDef acn (d_typ d) (d_asoc d)
  else if d_cn d =? acn then mkDef cn (d_typ d) (d_asoc d) else d.
Definition comp_at (comps : list icomp) (i : Z) : icomp := nth (Z.to_nat i) comps (mkIcomp 0 0 0 0 0 0).
Fixpoint apply_defs (fuel : nat) (comps : list icomp) (l : list def) : list icomp :=
  match fuel, l with
  | S fuel, d :: l =>
      let n := zlen comps in
      let cn := d_cn d in
      if n <=? cn then apply_defs fuel comps l
      else if (d_asoc d =? 0) || (d_asoc d =? 65535) then
        apply_defs fuel (set_nth comps (Z.to_nat cn) (with_alpha (comp_at comps cn) (d_typ d))) l
      else
        let acn := d_asoc d - 1 in
        if n <=? acn then apply_defs fuel comps l
        else if negb (cn =? acn) && (d_typ d =? 0) then
          let a := comp_at comps cn in
          let b := comp_at comps acn in
          apply_defs fuel
            (set_nth (set_nth comps (Z.to_nat acn) a) (Z.to_nat cn) (with_alpha b (d_typ d)))
            (map (swap_def cn acn) l)
        else apply_defs fuel (set_nth comps (Z.to_nat cn) (with_alpha (comp_at comps cn) (d_typ d))) l
  | _, _ => comps
  end.
Definition apply_cdef (comps : list icomp) (cdef : option (list def)) : list icomp :=
  match cdef with None => comps | Some l => apply_defs (length l) comps l end.

(** jp2.rs:961-991 [opj_jp2_apply_color_postprocessing], when all components are
    decoded and the colour boxes are not to be ignored. *)
Definition postprocess (m : heap) (comps : list icomp) (cdef : option (list def)) (pclr : option palette)
  : res (heap * list icomp) :=
  if negb (check_cdef (zlen comps) cdef pclr) then Refused
  else match pclr with
  | None => Got (m, apply_cdef comps cdef)
  | Some p =>
      match check_pclr (zlen comps) p with
      | None => Refused
      | Some p =>
          if is_nil (p_cmap p) then Got (m, apply_cdef comps cdef)
          else bind (apply_pclr m comps p) (fun '(m, cs) => Got (m, apply_cdef cs cdef))
      end
  end.
