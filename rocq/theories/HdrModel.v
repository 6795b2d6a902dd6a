(** Model of the marker segments of the main header, openjp2-rs/src/j2k.rs:
    writing (the procedures listed in [opj_j2k_setup_header_writing]) and
    reading ([opj_j2k_read_header_procedure] and its handlers).

    A stream is a list of bytes; a short read is a failure ([None]).  Fixed size
    arrays of the coding parameters are functions from the index.  Handlers of
    markers that the encoder does not write into an ordinary header (CAP, CPF,
    PPM and the component transform markers of part 2) are a parameter.  Not
    modelled: allocation failure, the code-stream index, messages. *)

From Coq Require Import ZArith List Bool.
From Verif Require Import Ints I32 Mem MathModel CioModel.
Import ListNotations.
Local Open Scope Z_scope.

(** cio.rs:40-53 and 55-68: a field of [n] bytes (see CioModel). *)
Definition be (n : nat) (v : Z) : list Z := skipn (4 - n) (to_be4 v).
Definition rd (n : nat) (d : list Z) : option (Z * list Z) :=
  if (List.length d <? n)%nat then None else Some (from_be (firstn n d), skipn n d).

(** j2k.rs:272-304 *)
Definition SOC := 65359. Definition SOT := 65424. Definition SOD := 65427. Definition EOC := 65497.
Definition CAP := 65360. Definition SIZ := 65361. Definition COD := 65362. Definition COC := 65363.
Definition CPF := 65369. Definition RGN := 65374. Definition QCD := 65372. Definition QCC := 65373.
Definition POC := 65375. Definition TLM := 65365. Definition PLM := 65367. Definition PLT := 65368.
Definition PPM := 65376. Definition PPT := 65377. Definition SOP := 65425. Definition EPH := 65426.
Definition CRG := 65379. Definition COM := 65380. Definition CBD := 65400. Definition MCC := 65397.
Definition MCT := 65396. Definition MCO := 65399.
Definition known (m : Z) : bool :=
  existsb (Z.eqb m)
    [SOC; SOT; SOD; EOC; CAP; SIZ; COD; COC; CPF; RGN; QCD; QCC; POC; TLM; PLM; PLT; PPM; PPT; SOP; EPH;
     CRG; COM; CBD; MCC; MCT; MCO].

(** openjpeg.rs [opj_image_comp], j2k.rs [opj_cp], [opj_image]: what SIZ holds. *)
Record comp := mkComp { c_prec : Z; c_sgnd : Z; c_dx : Z; c_dy : Z }.
Record siz := mkSiz { rsiz : Z; x1 : Z; y1 : Z; x0 : Z; y0 : Z; tdx : Z; tdy : Z; tx0 : Z; ty0 : Z; comps : list comp }.
Definition numcomps (s : siz) : Z := Z.of_nat (List.length (comps s)).

(** j2k.rs [opj_tccp]: coding parameters of one component of a tile. *)
Record tccp := mkT {
  csty : Z; numres : Z; cblkw : Z; cblkh : Z; cblksty : Z; qmfbid : Z; prcw : mem; prch : mem;
  qntsty : Z; numgbits : Z; expn : mem; mant : mem; roishift : Z; dcshift : Z }.
(** j2k.rs [opj_poc], [opj_tcp]. *)
Record poc := mkPoc { p_res0 : Z; p_comp0 : Z; p_lay1 : Z; p_res1 : Z; p_comp1 : Z; p_prg : Z }.
Record tcp := mkTcp { t_csty : Z; t_prg : Z; t_layers : Z; t_mct : Z; t_comps : list tccp; t_pocs : list poc }.
(** Zeroed memory ([opj_calloc]). *)
Definition zero : mem := fun _ => 0.
Definition tccp0 : tccp := mkT 0 0 0 0 0 0 zero zero 0 0 zero zero 0 0.
Definition at_ (l : list tccp) (i : Z) : tccp := nth (Z.to_nat i) l tccp0.

(** ** Writing *)

(** j2k.rs:1076-1163 [opj_j2k_write_siz] *)
Definition write_comp (c : comp) : list Z :=
  be 1 (u32 (u32 (c_prec c - 1) + u32 (Z.shiftl (c_sgnd c) 7))) ++ be 1 (c_dx c) ++ be 1 (c_dy c).
Definition write_siz (s : siz) : list Z :=
  be 2 SIZ ++ be 2 (u32 (u32 (40 + u32 (3 * numcomps s)) - 2)) ++ be 2 (rsiz s) ++
  be 4 (x1 s) ++ be 4 (y1 s) ++ be 4 (x0 s) ++ be 4 (y0 s) ++
  be 4 (tdx s) ++ be 4 (tdy s) ++ be 4 (tx0 s) ++ be 4 (ty0 s) ++ be 2 (numcomps s) ++
  flat_map write_comp (comps s).

(** j2k.rs:10180-10205 [opj_j2k_get_SPCod_SPCoc_size] *)
Definition sp_size (t : tccp) : Z := if Z.land (csty t) 1 =? 0 then 5 else u32 (5 + numres t).

(** j2k.rs:10272-10330 [opj_j2k_write_SPCod_SPCoc]: the bytes written into [room]
    bytes, and the room left, or failure after having written these bytes. *)
Definition write_prc (t : tccp) (i : nat) : list Z :=
  be 1 (u32 (prcw t (Z.of_nat i) + u32 (Z.shiftl (prch t (Z.of_nat i)) 4))).
Definition write_sp (t : tccp) (room : Z) : list Z * option Z :=
  if room <? 5 then ([], None) else
  let l := be 1 (u32 (numres t - 1)) ++ be 1 (u32 (cblkw t - 2)) ++ be 1 (u32 (cblkh t - 2)) ++
           be 1 (cblksty t) ++ be 1 (qmfbid t) in
  if Z.land (csty t) 1 =? 0 then (l, Some (room - 5))
  else if room - 5 <? numres t then (l, None)
  else (l ++ flat_map (write_prc t) (seq 0 (Z.to_nat (numres t))), Some (room - 5 - numres t)).

(** j2k.rs:1604-1688 [opj_j2k_write_cod] *)
Definition write_cod (t : tcp) : option (list Z) :=
  let c := at_ (t_comps t) 0 in
  let size := u32 (9 + sp_size c) in
  match write_sp c (u32 (size - 9)) with
  | (l, Some 0) =>
      Some (be 2 COD ++ be 2 (u32 (size - 2)) ++ be 1 (t_csty t) ++ be 1 (u32 (t_prg t)) ++ be 2 (t_layers t) ++
            be 1 (t_mct t) ++ l)
  | _ => None
  end.

(** j2k.rs: the number of bytes of a component number. *)
Definition room_of (n : Z) : nat := if n <=? 256 then 1 else 2.

(** j2k.rs:1806-1866 and 1907-1966 [opj_j2k_write_coc(_in_memory)]: the size is
    that of component [c], the element that of component 0, and a failure to write
    it is not noticed.  [old] is what the buffer holds behind the bytes written. *)
Definition write_coc (n : Z) (ts : list tccp) (c : Z) (old : list Z) : list Z :=
  let room := room_of n in
  let size := u32 (u32 (5 + Z.of_nat room) + sp_size (at_ ts c)) in
  firstn (Z.to_nat size)
    (be 2 COC ++ be 2 (u32 (size - 2)) ++ be room c ++ be 1 (csty (at_ ts c)) ++
     fst (write_sp (at_ ts 0) (u32 (size - u32 (5 + Z.of_nat room)))) ++ old).

(** j2k.rs:1874-1896 and 10213-10258 [opj_j2k_compare_coc] *)
Definition same_sp (a b : tccp) : bool :=
  (numres a =? numres b) && (cblkw a =? cblkw b) && (cblkh a =? cblkh b) && (cblksty a =? cblksty b) &&
  (qmfbid a =? qmfbid b) && (Z.land (csty a) 1 =? Z.land (csty b) 1) &&
  forallb (fun i => (prcw a (Z.of_nat i) =? prcw b (Z.of_nat i)) && (prch a (Z.of_nat i) =? prch b (Z.of_nat i)))
    (seq 0 (Z.to_nat (numres a))).
Definition same_coc (a b : tccp) : bool := (csty a =? csty b) && same_sp a b.

(** j2k.rs:10525-10558 and 10640-10717 [opj_j2k_write_SQcd_SQcc]; the room is
    always the size computed by [opj_j2k_get_SQcd_SQcc_size], so that the checks
    for room pass. *)
Definition num_bands (t : tccp) : Z := if qntsty t =? 1 then 1 else u32 (u32 (numres t * 3) - 2).
Definition sq_size (t : tccp) : Z :=
  if qntsty t =? 0 then u32 (1 + num_bands t) else u32 (1 + u32 (2 * num_bands t)).
Definition write_sq (t : tccp) : list Z :=
  be 1 (u32 (qntsty t + u32 (Z.shiftl (numgbits t) 5))) ++
  flat_map (fun i : nat =>
      if qntsty t =? 0 then be 1 (u32 (Z.shiftl (u32 (expn t (Z.of_nat i))) 3))
      else be 2 (u32 (u32 (Z.shiftl (u32 (expn t (Z.of_nat i))) 11) + u32 (mant t (Z.of_nat i)))))
    (seq 0 (Z.to_nat (num_bands t))).

(** j2k.rs:2076-2144 [opj_j2k_write_qcd] *)
Definition write_qcd (t : tcp) : list Z :=
  let c := at_ (t_comps t) 0 in be 2 QCD ++ be 2 (u32 (u32 (4 + sq_size c) - 2)) ++ write_sq c.

(** j2k.rs:2185-2246, 2271-2325 [opj_j2k_write_qcc(_in_memory)] *)
Definition write_qcc (n : Z) (ts : list tccp) (c : Z) : list Z :=
  let size := u32 (u32 (5 + sq_size (at_ ts c)) + (if n <=? 256 then 0 else 1)) in
  be 2 QCC ++ be 2 (u32 (size - 2)) ++ be (room_of n) c ++ write_sq (at_ ts c).

(** j2k.rs:10567-10627 [opj_j2k_compare_SQcd_SQcc] *)
Definition same_sq (a b : tccp) : bool :=
  (qntsty a =? qntsty b) && (numgbits a =? numgbits b) && ((qntsty a =? 1) || (num_bands a =? num_bands b)) &&
  forallb (fun i => expn a (Z.of_nat i) =? expn b (Z.of_nat i)) (seq 0 (Z.to_nat (num_bands a))) &&
  ((qntsty a =? 0) ||
   forallb (fun i => mant a (Z.of_nat i) =? mant b (Z.of_nat i)) (seq 0 (Z.to_nat (num_bands a)))).

(** j2k.rs:4870-4895, 4898-4923: segments for the components that differ from
    the first. *)
Definition others (n : Z) : list Z := map Z.of_nat (seq 1 (Z.to_nat (n - 1))).
Definition write_all_coc (n : Z) (ts : list tccp) (old : Z -> list Z) : list Z :=
  flat_map (fun c => if same_coc (at_ ts 0) (at_ ts c) then [] else write_coc n ts c (old c)) (others n).
Definition write_all_qcc (n : Z) (ts : list tccp) : list Z :=
  flat_map (fun c => if same_sq (at_ ts 0) (at_ ts c) then [] else write_qcc n ts c) (others n).

(** j2k.rs:2407-2555 [opj_j2k_write_poc(_in_memory)] for the progressions
    [pocs] ([numpocs + 1] of them). *)
Definition write_poc1 (n : Z) (p : poc) : list Z :=
  be 1 (p_res0 p) ++ be (room_of n) (p_comp0 p) ++ be 2 (p_lay1 p) ++ be 1 (p_res1 p) ++
  be (room_of n) (p_comp1 p) ++ be 1 (u32 (p_prg p)).
Definition write_poc (n : Z) (ps : list poc) : list Z :=
  be 2 POC ++
  be 2 (u32 (u32 (4 + u32 (u32 (5 + u32 (2 * Z.of_nat (room_of n))) * Z.of_nat (List.length ps))) - 2)) ++
  flat_map (write_poc1 n) ps.

(** j2k.rs:4430-4477 and 4926-4952 [opj_j2k_write_regions] *)
Definition write_rgn (n c : Z) (t : tccp) : list Z :=
  be 2 RGN ++ be 2 (u32 (u32 (6 + Z.of_nat (room_of n)) - 2)) ++ be (room_of n) c ++ be 1 0 ++ be 1 (u32 (roishift t)).
Definition write_regions (n : Z) (ts : list tccp) : list Z :=
  flat_map (fun c => if roishift (at_ ts c) =? 0 then [] else write_rgn n c (at_ ts c)) (0 :: others n).

(** j2k.rs:3451-3539 [opj_j2k_write_tlm] for [n] tile-parts; the entries are
    filled in later (j2k.rs:425-461) with [entries]. *)
Definition write_tlm (n : Z) (entries : list Z) : option (list Z) :=
  if 10921 <? n then None
  else
    let per := if n <=? 255 then 5 else 6 in
    Some (be 2 TLM ++ be 2 (u32 (u32 (6 + u32 (per * n)) - 2)) ++ be 1 0 ++ be 1 (if per =? 5 then 80 else 96) ++ entries).

(** j2k.rs:1515-1573 [opj_j2k_write_com] *)
Definition write_com (text : list Z) : list Z :=
  be 2 COM ++ be 2 (u32 (u32 (u32 (Z.of_nat (List.length text)) + 6) - 2)) ++ be 2 1 ++ text.

(** j2k.rs:3551-3593 [opj_j2k_write_sot]; the length [psot] is filled in when
    the tile-part is complete (j2k.rs:12725, 12816, 12866). *)
Definition write_sot (tile psot part parts : Z) : list Z :=
  be 2 SOT ++ be 2 10 ++ be 2 tile ++ be 4 psot ++ be 1 part ++ be 1 parts.

(** What the encoder writes into the main header: image and tile, first tile's
    coding parameters, tile-part lengths, comment.  The progressions go into the
    main header only with TLM and [rsiz = 4] (j2k.rs:12634-12640). *)
Record enc := mkEnc { e_siz : siz; e_tcp : tcp; e_tlm : option (Z * list Z); e_com : option (list Z) }.

(** j2k.rs:12620-12650 [opj_j2k_setup_header_writing], without the component
    transform markers of part 2. *)
Definition write_header (e : enc) (old : Z -> list Z) : option (list Z) :=
  let n := numcomps (e_siz e) in
  let ts := t_comps (e_tcp e) in
  match write_cod (e_tcp e), (match e_tlm e with None => Some [] | Some (k, l) => write_tlm k l end) with
  | Some cod, Some tlm =>
      Some (be 2 SOC ++ write_siz (e_siz e) ++ cod ++ write_qcd (e_tcp e) ++ write_all_coc n ts old ++
            write_all_qcc n ts ++ tlm ++
            (match e_tlm e with Some _ => if rsiz (e_siz e) =? 4 then write_poc n (t_pocs (e_tcp e)) else [] | None => [] end) ++
            write_regions n ts ++ (match e_com e with None => [] | Some l => write_com l end))
  | _, _ => None
  end.

(** ** Reading *)

(** j2k.rs:1333-1382: the components. *)
Fixpoint read_comps (n : nat) (d : list Z) : option (list comp * list Z) :=
  match n with
  | O => Some ([], d)
  | S n =>
      match rd 1 d with
      | None => None
      | Some (b, d) =>
          match rd 1 d with
          | None => None
          | Some (dx, d) =>
              match rd 1 d with
              | None => None
              | Some (dy, d) =>
                  let prec := u32 (Z.land b 127 + 1) in
                  if (dx <? 1) || (255 <? dx) || (dy <? 1) || (255 <? dy) then None
                  else if 31 <? prec then None
                  else
                    match read_comps n d with
                    | None => None
                    | Some (l, d) => Some (mkComp prec (Z.shiftr b 7) dx dy :: l, d)
                    end
              end
          end
      end
  end.

(** j2k.rs:1181-1501 [opj_j2k_read_siz]; [ihdr] is the image size of the
    container, (0, 0) if there is none or if dumping.  No components are refused
    at 1311-1318 because [opj_calloc] of nothing fails (malloc.rs:137-143). *)
Definition read_siz (ihdr : Z * Z) (d : list Z) : option siz :=
  let size := Z.of_nat (List.length d) in
  if size <? 36 then None
  else if negb ((size - 36) mod 3 =? 0) then None
  else
    match rd 2 d with None => None | Some (r, d) =>
    match rd 4 d with None => None | Some (ax1, d) =>
    match rd 4 d with None => None | Some (ay1, d) =>
    match rd 4 d with None => None | Some (ax0, d) =>
    match rd 4 d with None => None | Some (ay0, d) =>
    match rd 4 d with None => None | Some (adx, d) =>
    match rd 4 d with None => None | Some (ady, d) =>
    match rd 4 d with None => None | Some (atx, d) =>
    match rd 4 d with None => None | Some (aty, d) =>
    match rd 2 d with None => None | Some (n, d) =>
      if (16385 <=? n) || (n =? 0) then None
      else if negb (n =? (size - 36) / 3) then None
      else if (ax1 <=? ax0) || (ay1 <=? ay0) then None
      else if (adx =? 0) || (ady =? 0) then None
      else if (ax0 <? atx) || (ay0 <? aty) || (uint_adds atx adx <=? ax0) || (uint_adds aty ady <=? ay0) then None
      else if (0 <? fst ihdr) && (0 <? snd ihdr) &&
              (negb (fst ihdr =? u32 (ax1 - ax0)) || negb (snd ihdr =? u32 (ay1 - ay0))) then None
      else
        match read_comps (Z.to_nat n) d with
        | None => None
        | Some (cs, _) =>
            match uint_ceildiv (u32 (ax1 - atx)) adx, uint_ceildiv (u32 (ay1 - aty)) ady with
            | Some tw, Some th =>
                if (tw =? 0) || (th =? 0) || (65535 / th <? tw) then None
                else Some (mkSiz r ax1 ay1 ax0 ay0 adx ady atx aty cs)
            | _, _ => None
            end
        end
    end end end end end end end end end end.

(** j2k.rs:1438-1487: the component parameters set up by SIZ; j2k.rs:1473-1485:
    the level shift of unsigned components. *)
Definition fresh (c : comp) : tccp :=
  mkT 0 0 0 0 0 0 zero zero 0 0 zero zero 0
    (if c_sgnd c =? 0 then i32 (Z.shiftl 1 (u32 (c_prec c - 1) mod 32)) else 0).
Definition tcp_of (s : siz) : tcp := mkTcp 0 0 0 0 (map fresh (comps s)) [].

(** j2k.rs:10431-10452: precinct exponents. *)
Fixpoint read_prcs (n : nat) (i : Z) (d : list Z) (w h : mem) : option (mem * mem * list Z) :=
  match n with
  | O => Some (w, h, d)
  | S n =>
      match rd 1 d with
      | None => None
      | Some (b, d) =>
          if negb (i =? 0) && ((Z.land b 15 =? 0) || (Z.shiftr b 4 =? 0)) then None
          else read_prcs n (i + 1) d (upd w i (Z.land b 15)) (upd h i (Z.shiftr b 4))
      end
  end.
(** j2k.rs:10455-10461 *)
Fixpoint fill (n : nat) (i v : Z) (m : mem) : mem := match n with O => m | S n => fill n (i + 1) v (upd m i v) end.

(** j2k.rs:10338-10465 [opj_j2k_read_SPCod_SPCoc] into [t]; [reduce] is the
    number of resolutions the user discards. *)
Definition read_sp (reduce : Z) (t : tccp) (d : list Z) : option (tccp * list Z) :=
  if Z.of_nat (List.length d) <? 5 then None else
  match rd 1 d with None => None | Some (b, d) =>
  let nr := u32 (b + 1) in
  if 33 <? nr then None else if nr <=? reduce then None else
  match rd 1 d with None => None | Some (b, d) =>
  let w := u32 (b + 2) in
  match rd 1 d with None => None | Some (b, d) =>
  let h := u32 (b + 2) in
  if (10 <? w) || (10 <? h) || (12 <? u32 (w + h)) then None else
  match rd 1 d with None => None | Some (sty, d) =>
  if negb (Z.land sty 128 =? 0) then None else
  match rd 1 d with None => None | Some (q, d) =>
  if 1 <? q then None else
  if Z.land (csty t) 1 =? 0 then
    Some (mkT (csty t) nr w h sty q (fill (Z.to_nat nr) 0 15 (prcw t)) (fill (Z.to_nat nr) 0 15 (prch t))
            (qntsty t) (numgbits t) (expn t) (mant t) (roishift t) (dcshift t), d)
  else if Z.of_nat (List.length d) <? nr then None
  else
    match read_prcs (Z.to_nat nr) 0 d (prcw t) (prch t) with
    | None => None
    | Some (pw, ph, d) =>
        Some (mkT (csty t) nr w h sty q pw ph (qntsty t) (numgbits t) (expn t) (mant t) (roishift t) (dcshift t), d)
    end
  end end end end end.

Definition set_csty (v : Z) (t : tccp) : tccp :=
  mkT v (numres t) (cblkw t) (cblkh t) (cblksty t) (qmfbid t) (prcw t) (prch t) (qntsty t) (numgbits t) (expn t) (mant t)
    (roishift t) (dcshift t).
(** j2k.rs:10473-10513 [opj_j2k_copy_tile_component_parameters]: only the first
    [numres] precinct exponents are copied. *)
Definition copy_n (n : Z) (src dst : mem) : mem := fun i => if (0 <=? i) && (i <? n) then src i else dst i.
Definition copy_sp (r t : tccp) : tccp :=
  mkT (csty t) (numres r) (cblkw r) (cblkh r) (cblksty r) (qmfbid r) (copy_n (numres r) (prcw r) (prcw t))
    (copy_n (numres r) (prch r) (prch t)) (qntsty t) (numgbits t) (expn t) (mant t) (roishift t) (dcshift t).

(** Entry [i] of the components replaced. *)
Definition put (l : list tccp) (i : Z) (t : tccp) : list tccp :=
  firstn (Z.to_nat i) l ++ match skipn (Z.to_nat i) l with [] => [] | _ :: r => t :: r end.

(** j2k.rs:1695-1793 [opj_j2k_read_cod] *)
Definition read_cod (reduce : Z) (t : tcp) (d : list Z) : option tcp :=
  if Z.of_nat (List.length d) <? 5 then None else
  match rd 1 d with None => None | Some (sty, d) =>
  if negb (Z.land sty (2 ^ 32 - 8) =? 0) then None else
  match rd 1 d with None => None | Some (b, d) =>
  let prg := if 4 <? b then -1 else b in
  match rd 2 d with None => None | Some (layers, d) =>
  if (layers <? 1) || (65535 <? layers) then None else
  match rd 1 d with None => None | Some (mct, d) =>
  if 1 <? mct then None else
  let cs := map (set_csty (Z.land sty 1)) (t_comps t) in
  match read_sp reduce (at_ cs 0) d with
  | Some (c, []) => Some (mkTcp sty prg layers mct (c :: map (copy_sp c) (tl cs)) (t_pocs t))
  | _ => None
  end
  end end end end.

(** j2k.rs:2002-2068 [opj_j2k_read_coc] *)
Definition read_coc (reduce n : Z) (t : tcp) (d : list Z) : option tcp :=
  if Z.of_nat (List.length d) <? Z.of_nat (room_of n) + 1 then None else
  match rd (room_of n) d with None => None | Some (c, d) =>
  if n <=? c then None else
  match rd 1 d with None => None | Some (sty, d) =>
  match read_sp reduce (set_csty sty (at_ (t_comps t) c)) d with
  | Some (q, []) => Some (mkTcp (t_csty t) (t_prg t) (t_layers t) (t_mct t) (put (t_comps t) c q) (t_pocs t))
  | _ => None
  end
  end end.

(** j2k.rs:10778-10806: the step sizes of [n] bands; those above the 97th are
    read and dropped. *)
Fixpoint read_steps (w : nat) (n : nat) (i : Z) (d : list Z) (e m : mem) : option (mem * mem * list Z) :=
  match n with
  | O => Some (e, m, d)
  | S n =>
      match rd w d with
      | None => None
      | Some (v, d) =>
          if i <? 97 then
            if (w =? 1)%nat then read_steps w n (i + 1) d (upd e i (Z.shiftr v 3)) (upd m i 0)
            else read_steps w n (i + 1) d (upd e i (Z.shiftr v 11)) (upd m i (Z.land v 2047))
          else read_steps w n (i + 1) d e m
      end
  end.
(** j2k.rs:10808-10829: the other step sizes are derived from the first. *)
Definition derive_e (e : mem) : mem :=
  fun i => if (1 <=? i) && (i <? 97) then Z.max 0 (e 0 - (i - 1) / 3) else e i.
Definition derive_m (m : mem) : mem := fun i => if (1 <=? i) && (i <? 97) then m 0 else m i.

(** j2k.rs:10729-10838 [opj_j2k_read_SQcd_SQcc] into [t].  With one derived step
    size and less than two bytes the code reads past the segment, and then
    fails. *)
Definition read_sq (t : tccp) (d : list Z) : option (tccp * list Z) :=
  match rd 1 d with
  | None => None
  | Some (b, d) =>
      let sty := Z.land b 31 in
      let size := Z.of_nat (List.length d) in
      let n := if sty =? 1 then 1 else if sty =? 0 then size else size / 2 in
      match read_steps (if sty =? 0 then 1 else 2) (Z.to_nat n) 0 d (expn t) (mant t) with
      | None => None
      | Some (e, m, d) =>
          Some (mkT (csty t) (numres t) (cblkw t) (cblkh t) (cblksty t) (qmfbid t) (prcw t) (prch t) sty (Z.shiftr b 5)
                  (if sty =? 1 then derive_e e else e) (if sty =? 1 then derive_m m else m) (roishift t) (dcshift t), d)
      end
  end.

(** j2k.rs:10843-10885 [opj_j2k_copy_tile_quantization_parameters] *)
Definition copy_sq (r t : tccp) : tccp :=
  mkT (csty t) (numres t) (cblkw t) (cblkh t) (cblksty t) (qmfbid t) (prcw t) (prch t) (qntsty r) (numgbits r)
    (copy_n 97 (expn r) (expn t)) (copy_n 97 (mant r) (mant t)) (roishift t) (dcshift t).

Definition set_comps (t : tcp) (l : list tccp) : tcp := mkTcp (t_csty t) (t_prg t) (t_layers t) (t_mct t) l (t_pocs t).

(** j2k.rs:2159-2182 [opj_j2k_read_qcd] *)
Definition read_qcd (t : tcp) (d : list Z) : option tcp :=
  match read_sq (at_ (t_comps t) 0) d with
  | Some (c, []) => Some (set_comps t (c :: map (copy_sq c) (tl (t_comps t))))
  | _ => None
  end.

(** j2k.rs:2344-2399 [opj_j2k_read_qcc] *)
Definition read_qcc (n : Z) (t : tcp) (d : list Z) : option tcp :=
  match rd (room_of n) d with
  | None => None
  | Some (c, d) =>
      if n <=? c then None else
      match read_sq (at_ (t_comps t) c) d with
      | Some (q, []) => Some (set_comps t (put (t_comps t) c q))
      | _ => None
      end
  end.

(** j2k.rs:2724-2753 *)
Fixpoint read_pocs (k : nat) (n layers : Z) (d : list Z) : option (list poc) :=
  match k with
  | O => Some []
  | S k =>
      match rd 1 d with None => None | Some (r0, d) =>
      match rd (room_of n) d with None => None | Some (c0, d) =>
      match rd 2 d with None => None | Some (l1, d) =>
      match rd 1 d with None => None | Some (r1, d) =>
      match rd (room_of n) d with None => None | Some (c1, d) =>
      match rd 1 d with None => None | Some (p, d) =>
      match read_pocs k n layers d with
      | None => None
      | Some l => Some (mkPoc r0 c0 (Z.min l1 layers) r1 (Z.min c1 n) p :: l)
      end end end end end end end
  end.
(** j2k.rs:2667-2757 [opj_j2k_read_poc] *)
Definition read_poc (n : Z) (t : tcp) (d : list Z) : option tcp :=
  let chunk := 5 + 2 * Z.of_nat (room_of n) in
  let size := Z.of_nat (List.length d) in
  if (size / chunk =? 0) || negb (size mod chunk =? 0) then None
  else if 32 <=? size / chunk + Z.of_nat (List.length (t_pocs t)) then None
  else
    match read_pocs (Z.to_nat (size / chunk)) n (t_layers t) d with
    | None => None
    | Some l => Some (mkTcp (t_csty t) (t_prg t) (t_layers t) (t_mct t) (t_comps t) (t_pocs t ++ l))
    end.

(** j2k.rs:4530-4594 [opj_j2k_read_rgn] *)
Definition set_roi (v : Z) (t : tccp) : tccp :=
  mkT (csty t) (numres t) (cblkw t) (cblkh t) (cblksty t) (qmfbid t) (prcw t) (prch t) (qntsty t) (numgbits t) (expn t) (mant t)
    v (dcshift t).
Definition read_rgn (n : Z) (t : tcp) (d : list Z) : option tcp :=
  if negb (Z.of_nat (List.length d) =? 2 + Z.of_nat (room_of n)) then None else
  match rd (room_of n) d with None => None | Some (c, d) =>
  match rd 1 d with None => None | Some (_, d) =>
  if n <=? c then None else
  match rd 1 d with None => None | Some (v, _) =>
  Some (set_comps t (put (t_comps t) c (set_roi v (at_ (t_comps t) c))))
  end end end.

(** j2k.rs:2806-2853 [opj_j2k_read_tlm]: only the shape is checked. *)
Definition read_tlm (d : list Z) : bool :=
  if Z.of_nat (List.length d) <? 2 then false
  else
    let s := nth 1 d 0 in
    let st := Z.land (Z.shiftr s 4) 3 in
    let sp := Z.land (Z.shiftr s 6) 1 in
    (Z.of_nat (List.length d) - 2) mod ((sp + 1) * 2 + st) =? 0.

(** j2k.rs:3609-3644 [opj_j2k_get_sot_values]: tile, length, part, parts. *)
Definition get_sot_values (d : list Z) : option (Z * Z * Z * Z) :=
  if negb (List.length d =? 8)%nat then None else
  match rd 2 d with None => None | Some (tile, d) =>
  match rd 4 d with None => None | Some (len, d) =>
  match rd 1 d with None => None | Some (part, d) =>
  match rd 1 d with None => None | Some (parts, _) => Some (tile, len, part, parts)
  end end end end.

(** Reader state: SIZ once seen, default coding parameters, required markers
    seen. *)
Record hdr := mkHdr { h_siz : option siz; h_tcp : tcp; h_cod : bool; h_qcd : bool }.
Definition hdr0 : hdr := mkHdr None (mkTcp 0 0 0 0 [] []) false false.

(** j2k.rs:357-383 [J2KMarker::states] in the states [MHSIZ] (no SIZ yet) and
    [MH]. *)
Definition allowed (h : hdr) (m : Z) : bool :=
  match h_siz h with
  | None => m =? SIZ
  | Some _ => negb ((m =? SIZ) || (m =? PLT) || (m =? PPT) || (m =? SOP))
  end.

Definition set_tcp (h : hdr) (o : option tcp) : option hdr :=
  match o with None => None | Some t => Some (mkHdr (h_siz h) t (h_cod h) (h_qcd h)) end.

(** j2k.rs:385-420 [J2KMarker::handler]; [other] stands for the handlers not
    modelled. *)
Definition handler (other : Z -> hdr -> list Z -> option hdr) (ihdr : Z * Z) (reduce : Z) (m : Z) (h : hdr) (d : list Z)
  : option hdr :=
  let n := match h_siz h with None => 0 | Some s => numcomps s end in
  let t := h_tcp h in
  if m =? SIZ then
    match read_siz ihdr d with
    | None => None
    | Some s => Some (mkHdr (Some s) (tcp_of s) (h_cod h) (h_qcd h))
    end
  else if m =? COD then
    match read_cod reduce t d with None => None | Some t => Some (mkHdr (h_siz h) t true (h_qcd h)) end
  else if m =? COC then set_tcp h (read_coc reduce n t d)
  else if m =? RGN then set_tcp h (read_rgn n t d)
  else if m =? QCD then
    match read_qcd t d with None => None | Some t => Some (mkHdr (h_siz h) t (h_cod h) true) end
  else if m =? QCC then set_tcp h (read_qcc n t d)
  else if m =? POC then set_tcp h (read_poc n t d)
  else if m =? TLM then if read_tlm d then Some h else None
  else if m =? PLM then if (1 <=? List.length d)%nat then Some h else None
  else if m =? CRG then if Z.of_nat (List.length d) =? u32 (n * 4) then Some h else None
  else if m =? COM then Some h
  else if existsb (Z.eqb m) [CAP; CPF; PPM; CBD; MCC; MCT; MCO] then other m h d
  else None.

(** j2k.rs:4995-5059 [opj_j2k_read_unk]: words are read until one is a known
    marker. *)
Fixpoint read_unk (h : hdr) (d : list Z) : option (Z * list Z) :=
  match d with
  | a :: b :: d =>
      let m := from_be [a; b] in
      if m <? 65280 then read_unk h d
      else if negb (if known m then allowed h m else match h_siz h with None => false | Some _ => true end) then None
      else if known m then Some (m, d)
      else read_unk h d
  | _ => None
  end.

(** j2k.rs:8265-8400, the loop; [m] is the current marker.  The result is the
    state and what follows the SOT marker. *)
Fixpoint read_segments (other : Z -> hdr -> list Z -> option hdr) (ihdr : Z * Z) (reduce : Z) (fuel : nat) (m : Z) (h : hdr)
  (d : list Z) : option (hdr * list Z) :=
  match fuel with
  | O => None
  | S fuel =>
      if m =? SOT then Some (h, d)
      else if m <? 65280 then None
      else
        match (if known m then Some (m, d) else read_unk h d) with
        | None => None
        | Some (m, d) =>
            if m =? SOT then Some (h, d)
            else if negb (allowed h m) then None
            else
              match rd 2 d with
              | None => None
              | Some (size, d) =>
                  if size <? 2 then None
                  else
                    let k := Z.to_nat (size - 2) in
                    if (List.length d <? k)%nat then None
                    else
                      match handler other ihdr reduce m h (firstn k d) with
                      | None => None
                      | Some h =>
                          match rd 2 (skipn k d) with
                          | None => None
                          | Some (m, d) => read_segments other ihdr reduce fuel m h d
                          end
                      end
              end
        end
  end.

(** j2k.rs:8240-8422 [opj_j2k_read_header_procedure] *)
Definition read_header (other : Z -> hdr -> list Z -> option hdr) (ihdr : Z * Z) (reduce : Z) (d : list Z)
  : option (siz * tcp * list Z) :=
  match rd 2 d with
  | None => None
  | Some (m, d) =>
      if negb (m =? SOC) then None
      else
        match rd 2 d with
        | None => None
        | Some (m, d) =>
            match read_segments other ihdr reduce (S (List.length d)) m hdr0 d with
            | None => None
            | Some (h, d) =>
                match h_siz h with
                | Some s => if h_cod h && h_qcd h then Some (s, h_tcp h, d) else None
                | None => None
                end
            end
        end
  end.
