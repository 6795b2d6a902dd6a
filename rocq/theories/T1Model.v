(** Model of the code-block coder, openjp2-rs/src/t1.rs, in a release build.

    Flags and coefficients are memories indexed as the pointers of the code.
    Pointers that advance with the loops are given in closed form. A coding
    pass of the encoder never reads the MQ coder back, so it is the list of
    (context, bit) pairs handed to it; a raw pass hands over the same pairs and
    only the bits count. Distortion estimates are left out. *)

From Coq Require Import ZArith List Bool.
From Verif Require Import I32 Ints Mem MqModel MathModel T1Luts T2PacketModel.
Import ListNotations.
Local Open Scope Z_scope.

(** consts.rs:553-596. *)
Definition bit (i : Z) : Z := Z.shiftl 1 i.
Definition T1_SIGMA_NEIGHBOURS : Z := 0x1EF.
Definition T1_SIGMA_THIS : Z := bit 4.
Definition T1_CHI_0_I : Z := 18.
Definition T1_CHI_1_I : Z := 19.
Definition T1_CHI_2_I : Z := 22.
Definition T1_CHI_5_I : Z := 31.
Definition T1_MU_THIS : Z := bit 20.
Definition T1_PI_THIS : Z := bit 21.
Definition T1_PI_ALL : Z := Z.lor (Z.lor (bit 21) (bit 24)) (Z.lor (bit 27) (bit 30)).
Definition T1_SIGMA_COLUMN : Z := Z.lor (Z.lor (bit 4) (bit 7)) (Z.lor (bit 10) (bit 13)).
(** consts.rs:540-545. *)
Definition T1_CTXNO_MAG : Z := 14.
Definition T1_CTXNO_AGG : Z := 17.
Definition T1_CTXNO_UNI : Z := 18.
(** consts.rs, code-block styles. *)
Definition CBLKSTY_LAZY : Z := 0x01.
Definition CBLKSTY_RESET : Z := 0x02.
Definition CBLKSTY_TERMALL : Z := 0x04.
Definition CBLKSTY_VSC : Z := 0x08.
Definition CBLKSTY_PTERM : Z := 0x10.
Definition CBLKSTY_SEGSYM : Z := 0x20.
Definition styled (sty flag : Z) : bool := negb (Z.land sty flag =? 0).

(** [!x] on u32. *)
Definition not32 (x : Z) : Z := Z.lxor x 0xFFFFFFFF.
Definition or_at (f : mem) (p v : Z) : mem := upd f p (Z.lor (f p) v).
Definition and_at (f : mem) (p v : Z) : mem := upd f p (Z.land (f p) v).

(** t1.rs:568-571: the flags of column [x] in stripe [k] (rows 4k..4k+3). *)
Definition flag_at (w x k : Z) : Z := (x + 1) + (k + 1) * (w + 2).

(** ** Contexts *)

(** t1.rs:315-318. *)
Definition getctxno_zc (orient f : Z) : Z := nth (Z.to_nat (Z.land f T1_SIGMA_NEIGHBOURS)) (lut_ctxno_zc orient) 0.

(** t1.rs:320-347. *)
Definition sc_index (f pf nf ci : Z) : Z :=
  let lu := Z.land (Z.shiftr f (3 * ci)) (Z.lor (Z.lor (bit 1) (bit 3)) (Z.lor (bit 5) (bit 7))) in
  let lu := Z.lor lu (Z.land (Z.shiftr pf (T1_CHI_1_I + 3 * ci)) (bit 0)) in
  let lu := Z.lor lu (Z.land (Z.shiftr nf (T1_CHI_1_I - 2 + 3 * ci)) (bit 2)) in
  let lu := if ci =? 0 then Z.lor lu (Z.land (Z.shiftr f (T1_CHI_0_I - 4)) (bit 4))
            else Z.lor lu (Z.land (Z.shiftr f (T1_CHI_1_I - 4 + 3 * (ci - 1))) (bit 4)) in
  Z.lor lu (Z.land (Z.shiftr f (T1_CHI_2_I - 6 + 3 * ci)) (bit 6)).

(** t1.rs:349-352, 370-373. *)
Definition getctxno_sc (lu : Z) : Z := nth (Z.to_nat lu) lut_ctxno_sc 0.
Definition getspb (lu : Z) : Z := nth (Z.to_nat lu) lut_spb 0.

(** t1.rs:354-368. *)
Definition getctxno_mag (f : Z) : Z :=
  if negb (Z.land f T1_MU_THIS =? 0) then T1_CTXNO_MAG + 2
  else if negb (Z.land f T1_SIGMA_NEIGHBOURS =? 0) then T1_CTXNO_MAG + 1 else T1_CTXNO_MAG.

(** t1.rs:388-424 [opj_t1_update_flags_macro]. *)
Definition update_flags (f : mem) (p ci s stride : Z) (vsc : bool) : mem :=
  let f := or_at f (p - 1) (shl (bit 5) (3 * ci)) in
  let f := or_at f p (shl (Z.lor (shl s T1_CHI_1_I) (bit 4)) (3 * ci)) in
  let f := or_at f (p + 1) (shl (bit 3) (3 * ci)) in
  let f :=
    if (ci =? 0) && negb vsc then
      let n := p - stride in
      or_at (or_at (or_at f n (Z.lor (shl s T1_CHI_5_I) (bit 16))) (n - 1) (bit 17)) (n + 1) (bit 15)
    else f in
  if ci =? 3 then
    let n := p + stride in
    or_at (or_at (or_at f n (Z.lor (shl s T1_CHI_0_I) (bit 1))) (n - 1) (bit 2)) (n + 1) (bit 0)
  else f.

(** t1.rs:289-298. *)
Definition smr_abs (x : Z) : Z := Z.land x 0x7FFFFFFF.
Definition smr_sign (x : Z) : Z := Z.shiftr x 31.
(** [(smr_abs(x) & one) != 0] *)
Definition plane_bit (x one : Z) : Z := if Z.land (smr_abs x) one =? 0 then 0 else 1.

(** The tests on row [ci] of a flag word that the steps share. *)
Definition quiet (f ci : Z) : bool := Z.land f (shl (Z.lor T1_SIGMA_THIS T1_PI_THIS) (3 * ci)) =? 0.
Definition near (f ci : Z) : bool := negb (Z.land f (shl T1_SIGMA_NEIGHBOURS (3 * ci)) =? 0).
Definition to_refine (f ci : Z) : bool :=
  Z.land f (shl (Z.lor T1_SIGMA_THIS T1_PI_THIS) (3 * ci)) =? shl T1_SIGMA_THIS (3 * ci).

(** [lo, lo+1, .., hi-1], and the columns visited by the loops over full
    stripes (t1.rs:594-656 and alike). *)
Definition range (lo hi : Z) : list Z := map (fun i => lo + Z.of_nat i) (seq 0 (Z.to_nat (hi - lo))).
Definition full_columns (w h : Z) : list (Z * Z) := flat_map (fun k => map (fun i => (k, i)) (range 0 w)) (range 0 (h / 4)).
(** The columns of the last, incomplete stripe (t1.rs:658-692 and alike). *)
Definition last_columns (w h : Z) : list (Z * Z) := if 0 <? h mod 4 then map (fun i => (h / 4, i)) (range 0 w) else [].

(** ** Encoder *)

Definition sym : Type := (Z * Z)%type.
Definition estep : Type := mem -> mem * list sym.
Fixpoint esteps (l : list estep) : estep := fun f =>
  match l with
  | [] => (f, [])
  | s :: l => let '(f, o) := s f in let '(f, o') := esteps l f in (f, o ++ o')
  end.

(** t1.rs:438-492. *)
Definition enc_sig_step (raw : bool) (w orient one p : Z) (data : mem) (dp ci : Z) (vsc : bool) : estep := fun f =>
  let flags := f p in
  if quiet flags ci && near flags ci then
    let v := plane_bit (data dp) one in
    let o := [(getctxno_zc orient (Z.shiftr flags (3 * ci)), v)] in
    let '(f, o) :=
      if negb (v =? 0) then
        let lu := sc_index flags (f (p - 1)) (f (p + 1)) ci in
        let s := smr_sign (data dp) in
        (update_flags f p ci s (w + 2) vsc, o ++ [(getctxno_sc lu, if raw then s else Z.lxor s (getspb lu))])
      else (f, o) in
    (or_at f p (shl T1_PI_THIS (3 * ci)), o)
  else (f, []).

(** t1.rs:575-693; [one] is t1.rs:585. *)
Definition enc_one (bpno : Z) : Z := Z.shiftl 1 (bpno + 6).
Definition full_data (w k i ci : Z) : Z := 4 * (k * w + i) + ci.
Definition last_data (w h k i ci : Z) : Z := 4 * k * w + (h mod 4) * i + ci.
Definition enc_sigpass (raw : bool) (w h orient bpno sty : Z) (data : mem) : estep :=
  let one := enc_one bpno in
  let vsc := styled sty CBLKSTY_VSC in
  esteps (
    map (fun c => fun f =>
           let '(k, i) := c in
           let p := flag_at w i k in
           if f p =? 0 then (f, [])
           else esteps (map (fun ci => enc_sig_step raw w orient one p data (full_data w k i ci) ci ((ci =? 0) && vsc)) (range 0 4)) f)
        (full_columns w h) ++
    map (fun c => fun f =>
           let '(k, i) := c in
           let p := flag_at w i k in
           if f p =? 0 then (f, [])
           else esteps (map (fun ci => enc_sig_step raw w orient one p data (last_data w h k i ci) ci ((ci =? 0) && vsc)) (range 0 (h mod 4))) f)
        (last_columns w h)).

(** t1.rs:918-952. *)
Definition enc_ref_step (one p : Z) (data : mem) (dp ci : Z) : estep := fun f =>
  let flags := f p in
  if to_refine flags ci then
    (or_at f p (shl T1_MU_THIS (3 * ci)), [(getctxno_mag (Z.shiftr flags (3 * ci)), plane_bit (data dp) one)])
  else (f, []).

(** t1.rs:1021-1115. *)
Definition enc_refpass (w h bpno : Z) (data : mem) : estep :=
  let one := enc_one bpno in
  esteps (
    map (fun c => fun f =>
           let '(k, i) := c in
           let p := flag_at w i k in
           if Z.land (f p) T1_SIGMA_COLUMN =? 0 then (f, [])
           else if Z.land (f p) T1_PI_ALL =? T1_PI_ALL then (f, [])
           else esteps (map (fun ci => enc_ref_step one p data (full_data w k i ci) ci) (range 0 4)) f)
        (full_columns w h) ++
    map (fun c => fun f =>
           let '(k, i) := c in
           let p := flag_at w i k in
           if Z.land (f p) T1_SIGMA_COLUMN =? 0 then (f, [])
           else esteps (map (fun ci => enc_ref_step one p data (last_data w h k i ci) ci) (range 0 (h mod 4))) f)
        (last_columns w h)).

(** t1.rs:1286-1327: one row of the clean-up pass; [agg] is whether the row is
    the one a run-length has announced. *)
Definition enc_cln_row (w orient one p : Z) (data : mem) (dp ci : Z) (agg vsc : bool) : estep := fun f =>
  let '(coded, o) :=
    if agg then (true, [])
    else if quiet (f p) ci then
      let v := plane_bit (data dp) one in
      (negb (v =? 0), [(getctxno_zc orient (Z.shiftr (f p) (3 * ci)), v)])
    else (false, []) in
  let '(f, o) :=
    if coded then
      let lu := sc_index (f p) (f (p - 1)) (f (p + 1)) ci in
      let s := smr_sign (data dp) in
      (update_flags f p ci s (w + 2) (vsc && (ci =? 0)), o ++ [(getctxno_sc lu, Z.lxor s (getspb lu))])
    else (f, o) in
  (and_at f p (not32 (shl T1_PI_THIS (3 * ci))), o).

(** t1.rs:1259-1329; [dp] is the first row's place, where the code passes that
    of row [runlen] and advances from there. *)
Definition pi_from (runlen : Z) : Z :=
  if runlen =? 0 then T1_PI_ALL
  else if runlen =? 1 then Z.lor (bit 24) (Z.lor (bit 27) (bit 30))
  else if runlen =? 2 then Z.lor (bit 27) (bit 30)
  else if runlen =? 3 then bit 30 else 0.
Definition enc_cln_step (w orient one p : Z) (data : mem) (dp : Z -> Z) (agg : bool) (runlen lim : Z) (vsc : bool) : estep := fun f =>
  let CHECK := Z.lor T1_SIGMA_COLUMN T1_PI_ALL in
  if Z.land (f p) CHECK =? CHECK then (and_at f p (not32 (pi_from runlen)), [])
  else esteps (map (fun ci => enc_cln_row w orient one p data (dp ci) ci (agg && (ci =? runlen)) vsc) (range runlen lim)) f.

(** t1.rs:1421-1435: rows before the first with a bit in this plane. *)
Fixpoint run_length (one : Z) (data : mem) (dp : Z -> Z) (ci : Z) (fuel : nat) : Z :=
  match fuel with
  | O => ci
  | S fuel => if plane_bit (data (dp ci)) one =? 0 then run_length one data dp (ci + 1) fuel else ci
  end.

(** t1.rs:1392-1476. *)
Definition enc_clnpass (w h orient bpno sty : Z) (data : mem) : estep :=
  let one := enc_one bpno in
  let vsc := styled sty CBLKSTY_VSC in
  esteps (
    map (fun c => fun f =>
           let '(k, i) := c in
           let p := flag_at w i k in
           let agg := f p =? 0 in
           let runlen := if agg then run_length one data (full_data w k i) 0 4 else 0 in
           let o :=
             if agg then
               (T1_CTXNO_AGG, if runlen =? 4 then 0 else 1) ::
               (if runlen =? 4 then [] else [(T1_CTXNO_UNI, Z.shiftr runlen 1); (T1_CTXNO_UNI, Z.land runlen 1)])
             else [] in
           let '(f, o') := enc_cln_step w orient one p data (full_data w k i) agg runlen 4 vsc f in (f, o ++ o'))
        (full_columns w h) ++
    map (fun c => fun f =>
           let '(k, i) := c in
           enc_cln_step w orient one (flag_at w i k) data (last_data w h k i) false 0 (h mod 4) vsc f)
        (last_columns w h)).

(** t1.rs:1761-1817 [opj_t1_allocate_buffers]: the flags. *)
Definition guard_bits (h : Z) : Z :=
  if h mod 4 =? 1 then Z.lor (bit 24) (Z.lor (bit 27) (bit 30))
  else if h mod 4 =? 2 then Z.lor (bit 27) (bit 30)
  else if h mod 4 =? 3 then bit 30 else 0.
Definition init_flags (w h : Z) : mem := fun p =>
  let row := p / (w + 2) in
  if (p <? 0) || ((h + 3) / 4 + 2 <=? row) then 0
  else if (row =? 0) || (row =? (h + 3) / 4 + 1) then T1_PI_ALL
  else if negb (h mod 4 =? 0) && (row =? (h + 3) / 4) then guard_bits h
  else 0.

(** t1.rs:2691-2720 [opj_t1_enc_is_term_pass]. *)
Definition enc_is_term (sty numbps bpno passtype : Z) : bool :=
  if (passtype =? 2) && (bpno =? 0) then true
  else if styled sty CBLKSTY_TERMALL then true
  else if styled sty CBLKSTY_LAZY then
    if (bpno =? i32 numbps - 4) && (passtype =? 2) then true
    else (bpno <? i32 numbps - 4) && (0 <? passtype)
  else false.

(** t1.rs:2748-2783: sign and magnitude. *)
Definition to_smr (x : Z) : Z :=
  let x := if x =? - 2 ^ 31 then - 2 ^ 31 + 1 else x in
  if x <? 0 then Z.lor (- x) 0x80000000 else x.
Definition max_abs (n : Z) (data : mem) : Z :=
  fold_left (fun m i => Z.max m (smr_abs (to_smr (data i)))) (range 0 n) 0.
(** t1.rs:2784-2788. *)
Definition enc_numbps (max : Z) : Z := if negb (max =? 0) then u32 (floorlog2 max + 1 - 6) else 0.

(** The symbols of a pass handed to the coder: MQ, or raw. *)
Definition code_mq (start : Z) (l : list sym) (s : mqc) : mqc := fold_left (fun s p => encode start (fst p) (snd p) s) l s.
Definition code_raw (l : list sym) (s : mqc) : mqc := fold_left (fun s p => bypass_enc (snd p) s) l s.

(** t1.rs:2806-2813, 2302-2310. *)
Definition is_raw (sty numbps bpno passtype : Z) : bool :=
  (bpno <? i32 numbps - 4) && (passtype <? 2) && styled sty CBLKSTY_LAZY.

(** t1.rs:2822-2837: the flags after the pass and its symbols. *)
Definition enc_pass (w h orient sty numbps bpno passtype : Z) (data : mem) : estep := fun f =>
  let raw := is_raw sty numbps bpno passtype in
  if passtype =? 0 then enc_sigpass raw w h orient bpno sty data f
  else if passtype =? 1 then enc_refpass w h bpno data f
  else if passtype =? 2 then enc_clnpass w h orient bpno sty data f
  else (f, []).

(** t1.rs:2802-2882: one turn of the coding loop. [prev] is whether the pass
    before was terminated; the result adds the rate of the pass. *)
Definition enc_turn (start w h orient sty numbps bpno passtype : Z) (prev : bool) (data f : mem) (s : mqc) : mem * mqc * Z * bool :=
  let raw := is_raw sty numbps bpno passtype in
  let s := if prev then (if raw then bypass_init_enc start s else restart_init_enc start s) else s in
  let '(f, o) := enc_pass w h orient sty numbps bpno passtype data f in
  let s := if raw then code_raw o s else code_mq start o s in
  let s := if (passtype =? 2) && styled sty CBLKSTY_SEGSYM then segmark_enc start s else s in
  let pterm := styled sty CBLKSTY_PTERM in
  let term := enc_is_term sty numbps bpno passtype in
  let s := if term then (if raw then bypass_flush_enc pterm s else if pterm then erterm_enc start s else flush start s) else s in
  let rate := u32 (numbytes start s) in
  let rate := if term then rate else u32 (rate + (if raw then bypass_extra_bytes pterm s else 3)) in
  (f, if styled sty CBLKSTY_RESET then set_ctxs s reset_ctxs else s, rate, term).

(** t1.rs:2802-2883: the coding loop; rates and terminations in coding order. *)
Fixpoint enc_loop (fuel : nat) (start w h orient sty numbps bpno passtype : Z) (prev : bool) (data f : mem) (s : mqc)
  : option (list (Z * bool) * mqc) :=
  if bpno <? 0 then Some ([], s) else
  match fuel with
  | O => None
  | S fuel =>
      let '(f, s, rate, term) := enc_turn start w h orient sty numbps bpno passtype prev data f s in
      let '(bpno, passtype) := if passtype + 1 =? 3 then (bpno - 1, 0) else (bpno, passtype + 1) in
      match enc_loop fuel start w h orient sty numbps bpno passtype term data f s with
      | None => None
      | Some (l, s) => Some ((rate, term) :: l, s)
      end
  end.

(** The first [n] bytes of the code-block's buffer. *)
Definition bytes_at (m : mem) (start n : Z) : list Z := map (fun i => m (start + Z.of_nat i)) (seq 0 (Z.to_nat n)).

(** t1.rs:2722-2923 [opj_t1_encode_cblk]: bit-planes, rate and termination of
    each pass, and the bytes. [m] is the buffer beforehand. [None] is a failed
    assertion. *)
Record coded : Type := mkCoded { k_numbps : Z; k_rates : list Z; k_terms : list bool; k_data : list Z }.
Definition encode_cblk (start w h orient sty : Z) (data m : mem) : option coded :=
  let numbps := enc_numbps (max_abs (w * h) data) in
  let smr := fun i => to_smr (data i) in
  if numbps =? 0 then Some (mkCoded 0 [] [] []) else
  let s := init_enc start m reset_ctxs in
  match enc_loop 100 start w h orient sty numbps (i32 (numbps - 1)) 2 false smr (init_flags w h) s with
  | None => None
  | Some (passes, s) =>
      if negb (ok s) then None else
      match passes with
      | [] => Some (mkCoded numbps [] [] [])
      | _ =>
        let n := u32 (numbytes start s) in
        let bytes := bytes_at (buf s) start n in
        match trim_rates bytes (fst (cap_rates (map fst passes) n)) with
        | None => None
        | Some rates => Some (mkCoded numbps rates (map snd passes) bytes)
        end
      end
  end.

(** ** Decoder *)

Record dst : Type := mkDst { d_f : mem; d_v : mem; d_q : mqd }.
Definition dstep : Type := dst -> option dst.
Fixpoint dsteps (l : list dstep) : dstep := fun t =>
  match l with [] => Some t | s :: l => match s t with None => None | Some t => dsteps l t end end.

Definition set_sign (v oneplushalf : Z) : Z := if negb (v =? 0) then - oneplushalf else oneplushalf.

(** t1.rs:494-516. [None]: the MQ decoder does not come back. *)
Definition dec_sig_step_raw (w oneplushalf p dp ci : Z) (vsc : bool) : dstep := fun t =>
  let flags := d_f t p in
  if quiet flags ci && near flags ci then
    let '(v, q) := raw_decode (d_q t) in
    let t :=
      if negb (v =? 0) then
        let '(v, q) := raw_decode q in
        mkDst (update_flags (d_f t) p ci v (w + 2) vsc) (upd (d_v t) dp (set_sign v oneplushalf)) q
      else mkDst (d_f t) (d_v t) q in
    Some (mkDst (or_at (d_f t) p (shl T1_PI_THIS (3 * ci))) (d_v t) (d_q t))
  else Some t.

(** t1.rs:518-565. *)
Definition dec_sig_step_mqc (w orient oneplushalf p dp ci : Z) (vsc : bool) : dstep := fun t =>
  let f := d_f t in
  let flags := f p in
  if quiet flags ci && near flags ci then
    match decode (getctxno_zc orient (Z.shiftr flags (3 * ci))) (d_q t) with
    | None => None
    | Some (v, q) =>
        if negb (v =? 0) then
          let lu := sc_index flags (f (p - 1)) (f (p + 1)) ci in
          match decode (getctxno_sc lu) q with
          | None => None
          | Some (v, q) =>
              let v := Z.lxor v (getspb lu) in
              Some (mkDst (or_at (update_flags f p ci v (w + 2) vsc) p (shl T1_PI_THIS (3 * ci))) (upd (d_v t) dp (set_sign v oneplushalf)) q)
          end
        else Some (mkDst (or_at f p (shl T1_PI_THIS (3 * ci))) (d_v t) q)
    end
  else Some t.

(** t1.rs:709-711 and alike. *)
Definition one_plus_half (bpno : Z) : Z := let one := Z.shiftl 1 bpno in Z.lor one (Z.shiftr one 1).
Definition dec_data (w k i ci : Z) : Z := (4 * k + ci) * w + i.

(** t1.rs:695-777 (raw) and 779-914 (MQ; the 64x64 variants are the same loops
    with constants). *)
Definition dec_sigpass (raw : bool) (w h orient bpno sty : Z) : dstep :=
  let oph := one_plus_half bpno in
  let vsc := styled sty CBLKSTY_VSC in
  let step p dp ci v := if raw then dec_sig_step_raw w oph p dp ci v else dec_sig_step_mqc w orient oph p dp ci v in
  dsteps (
    map (fun c => fun t =>
           let '(k, i) := c in
           let p := flag_at w i k in
           if d_f t p =? 0 then Some t
           else dsteps (map (fun ci => step p (dec_data w k i ci) ci ((ci =? 0) && vsc)) (range 0 4)) t)
        (full_columns w h) ++
    map (fun c => fun t =>
           let '(k, i) := c in
           dsteps (map (fun ci => step (flag_at w i k) (dec_data w k i ci) ci vsc) (range 0 (h mod 4))) t)
        (last_columns w h)).

(** t1.rs:954-976: a refinement with bit [v]. *)
Definition refine (x v poshalf : Z) : Z :=
  i32 (x + (if Z.lxor v (if x <? 0 then 1 else 0) =? 0 then - poshalf else poshalf)).
Definition dec_ref_step_raw (poshalf p dp ci : Z) : dstep := fun t =>
  if to_refine (d_f t p) ci then
    let '(v, q) := raw_decode (d_q t) in
    Some (mkDst (or_at (d_f t) p (shl T1_MU_THIS (3 * ci))) (upd (d_v t) dp (refine (d_v t dp) v poshalf)) q)
  else Some t.
(** t1.rs:978-1017. *)
Definition dec_ref_step_mqc (poshalf p dp ci : Z) : dstep := fun t =>
  let flags := d_f t p in
  if to_refine flags ci then
    match decode (getctxno_mag (Z.shiftr flags (3 * ci))) (d_q t) with
    | None => None
    | Some (v, q) => Some (mkDst (or_at (d_f t) p (shl T1_MU_THIS (3 * ci))) (upd (d_v t) dp (refine (d_v t dp) v poshalf)) q)
    end
  else Some t.

(** t1.rs:1117-1180 (raw) and 1182-1256 (MQ). *)
Definition dec_refpass (raw : bool) (w h bpno : Z) : dstep :=
  let poshalf := Z.shiftr (Z.shiftl 1 bpno) 1 in
  let step p dp ci := if raw then dec_ref_step_raw poshalf p dp ci else dec_ref_step_mqc poshalf p dp ci in
  dsteps (
    map (fun c => fun t =>
           let '(k, i) := c in
           let p := flag_at w i k in
           if d_f t p =? 0 then Some t
           else dsteps (map (fun ci => step p (dec_data w k i ci) ci) (range 0 4)) t)
        (full_columns w h) ++
    map (fun c => fun t =>
           let '(k, i) := c in
           dsteps (map (fun ci => step (flag_at w i k) (dec_data w k i ci) ci) (range 0 (h mod 4))) t)
        (last_columns w h)).

(** t1.rs:1330-1365 [opj_t1_dec_clnpass_step_macro]. *)
Definition dec_cln_step (check_flags partial : bool) (w orient oneplushalf p dp ci : Z) (vsc : bool) : dstep := fun t =>
  let f := d_f t in
  let flags := f p in
  let sign q :=
    let lu := sc_index flags (f (p - 1)) (f (p + 1)) ci in
    match decode (getctxno_sc lu) q with
    | None => None
    | Some (v, q) =>
        let v := Z.lxor v (getspb lu) in
        Some (mkDst (update_flags f p ci v (w + 2) vsc) (upd (d_v t) dp (set_sign v oneplushalf)) q)
    end in
  if negb check_flags || quiet flags ci then
    if partial then sign (d_q t)
    else
      match decode (getctxno_zc orient (Z.shiftr flags (3 * ci))) (d_q t) with
      | None => None
      | Some (v, q) => if v =? 0 then Some (mkDst f (d_v t) q) else sign q
      end
  else Some t.

Definition clear_pi (p : Z) : dstep := fun t => Some (mkDst (and_at (d_f t) p (not32 T1_PI_ALL)) (d_v t) (d_q t)).

(** t1.rs:1478-1668. *)
Definition dec_clnpass (w h orient bpno sty : Z) : dstep :=
  let oph := one_plus_half bpno in
  let vsc := styled sty CBLKSTY_VSC in
  dsteps (
    map (fun c => fun t =>
           let '(k, i) := c in
           let p := flag_at w i k in
           let row check partial ci := dec_cln_step check partial w orient oph p (dec_data w k i ci) ci ((ci =? 0) && vsc) in
           if d_f t p =? 0 then
             match decode T1_CTXNO_AGG (d_q t) with
             | None => None
             | Some (v, q) =>
                 if v =? 0 then Some (mkDst (d_f t) (d_v t) q) else
                 match decode T1_CTXNO_UNI q with
                 | None => None
                 | Some (r1, q) =>
                     match decode T1_CTXNO_UNI q with
                     | None => None
                     | Some (r0, q) =>
                         let runlen := Z.lor (shl r1 1) r0 in
                         dsteps (map (fun ci => row false (ci =? runlen) ci) (range runlen 4) ++ [clear_pi p]) (mkDst (d_f t) (d_v t) q)
                     end
                 end
             end
           else dsteps (map (row true false) (range 0 4) ++ [clear_pi p]) t)
        (full_columns w h) ++
    map (fun c => fun t =>
           let '(k, i) := c in
           let p := flag_at w i k in
           dsteps (map (fun ci => dec_cln_step true false w orient oph p (dec_data w k i ci) ci vsc) (range 0 (h mod 4)) ++ [clear_pi p]) t)
        (last_columns w h)).

(** t1.rs:1671-1690: the four bits are read and whatever they are ignored. *)
Definition check_segsym (sty : Z) : dstep := fun t =>
  if styled sty CBLKSTY_SEGSYM then
    dsteps (map (fun _ => fun t => match decode T1_CTXNO_UNI (d_q t) with None => None | Some (_, q) => Some (mkDst (d_f t) (d_v t) q) end) (range 0 4)) t
  else Some t.

(** t1.rs:2327-2361: one pass. *)
Definition dec_pass (raw : bool) (w h orient bpno1 sty passtype : Z) : dstep := fun t =>
  let r :=
    if passtype =? 0 then dec_sigpass raw w h orient bpno1 sty t
    else if passtype =? 1 then dec_refpass raw w h bpno1 t
    else if passtype =? 2 then dsteps [dec_clnpass w h orient bpno1 sty; check_segsym sty] t
    else Some t in
  match r with
  | None => None
  | Some t => Some (if styled sty CBLKSTY_RESET && negb raw then mkDst (d_f t) (d_v t) (dset_ctxs (d_q t) reset_ctxs) else t)
  end.

(** t1.rs:2327-2367: the passes of a segment; the bit-plane and pass type
    after it. *)
Fixpoint dec_passes (n : nat) (raw : bool) (w h orient bpno1 sty passtype : Z) (t : dst) : option (Z * Z * dst) :=
  match n with
  | O => Some (bpno1, passtype, t)
  | S n =>
      if bpno1 <? 1 then Some (bpno1, passtype, t) else
      match dec_pass raw w h orient bpno1 sty passtype t with
      | None => None
      | Some t =>
          let '(bpno1, passtype) := if passtype + 1 =? 3 then (bpno1 - 1, 0) else (bpno1, passtype + 1) in
          dec_passes n raw w h orient bpno1 sty passtype t
      end
  end.

(** t1.rs:2298-2371: the segments; [segs] has length and number of passes of each. *)
Fixpoint dec_segments (segs : list (Z * Z)) (w h orient sty numbps bpno1 passtype index : Z) (m ctx f v : mem) : option mem :=
  match segs with
  | [] => Some v
  | (len, np) :: segs =>
      let raw := (bpno1 <=? i32 numbps - 4) && (passtype <? 2) && styled sty CBLKSTY_LAZY in
      let q := if raw then raw_init_dec m index len ctx else init_dec m index len ctx in
      match dec_passes (Z.to_nat np) raw w h orient bpno1 sty passtype (mkDst f v q) with
      | None => None
      | Some (bpno1, passtype, t) =>
          dec_segments segs w h orient sty numbps bpno1 passtype (u32 (index + len)) (finish_dec (d_q t)) (dctxs (d_q t)) (d_f t) (d_v t)
      end
  end.

(** t1.rs:2232-2430 [opj_t1_decode_cblk]: the coefficients, or [None] if the
    block is refused. [m] holds the chunks one after the other (t1.rs:2264-2297);
    without chunks nothing is decoded. *)
Definition decode_cblk (w h orient roishift sty numbps : Z) (chunks : bool) (segs : list (Z * Z)) (m : mem) : option mem :=
  let bpno1 := i32 (u32 (roishift + numbps)) in
  if 31 <=? bpno1 then None
  else if negb chunks then Some (fun _ => 0)
  else dec_segments segs w h orient sty numbps bpno1 2 0 m reset_ctxs (init_flags w h) (fun _ => 0).

(** ** Before and after *)

(** t1.rs:2487-2540: the coefficients of a reversible band in stripe order, with
    six fractional bits. [x i j] is column [i], row [j]. *)
Definition stripe_order (w h : Z) (x : Z -> Z -> Z) : mem := fun n =>
  if n <? 4 * (h / 4) * w then x ((n / 4) mod w) (4 * (n / 4 / w) + n mod 4)
  else x ((n - 4 * (h / 4) * w) / (h mod 4)) (4 * (h / 4) + (n - 4 * (h / 4) * w) mod (h mod 4)).
Definition scaled (x : Z -> Z -> Z) : Z -> Z -> Z := fun i j => i32 (Z.shiftl (x i j) 6).

(** t1.rs:1930-1960: undoing a region-of-interest shift. *)
Definition roi_unshift (roishift x : Z) : Z :=
  if roishift =? 0 then x
  else if 31 <=? roishift then 0
  else
    let mag := Z.abs x in
    if Z.shiftl 1 roishift <=? mag then (let mag := Z.shiftr mag roishift in if x <? 0 then - mag else mag) else x.

(** t1.rs:1984-2060: the coefficient of a reversible band. *)
Definition halved (x : Z) : Z := Z.quot x 2.
