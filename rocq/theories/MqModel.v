(** Model of the MQ arithmetic coder and of the raw (bypass) coder,
    openjp2-rs/src/mqc.rs, in a release build.

    The byte buffer is a memory indexed by [bp]. Registers are 32-bit words
    with explicit wrap-around. [ok] records the assertions of the code: it
    turns false when one fails, or when a renormalisation loop does not end
    within 32 rounds (no state reachable from a normal one needs more than
    15). The current context is passed to each operation instead of being
    stored. *)

From Coq Require Import ZArith List Bool.
From Verif Require Import Ints Mem.
Import ListNotations.
Local Open Scope Z_scope.

(** mqc.rs:324-419: qeval, mps, nmps, nlps. *)
Definition mqc_states : list (Z * Z * Z * Z) :=
  [
   (22017, 0, 2, 3); (22017, 1, 3, 2); (13313, 0, 4, 12); (13313, 1, 5, 13);
   (6145, 0, 6, 18); (6145, 1, 7, 19); (2753, 0, 8, 24); (2753, 1, 9, 25);
   (1313, 0, 10, 58); (1313, 1, 11, 59); (545, 0, 76, 66); (545, 1, 77, 67);
   (22017, 0, 14, 13); (22017, 1, 15, 12); (21505, 0, 16, 28); (21505, 1, 17, 29);
   (18433, 0, 18, 28); (18433, 1, 19, 29); (14337, 0, 20, 28); (14337, 1, 21, 29);
   (12289, 0, 22, 34); (12289, 1, 23, 35); (9217, 0, 24, 36); (9217, 1, 25, 37);
   (7169, 0, 26, 40); (7169, 1, 27, 41); (5633, 0, 58, 42); (5633, 1, 59, 43);
   (22017, 0, 30, 29); (22017, 1, 31, 28); (21505, 0, 32, 28); (21505, 1, 33, 29);
   (20737, 0, 34, 30); (20737, 1, 35, 31); (18433, 0, 36, 32); (18433, 1, 37, 33);
   (14337, 0, 38, 34); (14337, 1, 39, 35); (13313, 0, 40, 36); (13313, 1, 41, 37);
   (12289, 0, 42, 38); (12289, 1, 43, 39); (10241, 0, 44, 38); (10241, 1, 45, 39);
   (9217, 0, 46, 40); (9217, 1, 47, 41); (8705, 0, 48, 42); (8705, 1, 49, 43);
   (7169, 0, 50, 44); (7169, 1, 51, 45); (6145, 0, 52, 46); (6145, 1, 53, 47);
   (5633, 0, 54, 48); (5633, 1, 55, 49); (5121, 0, 56, 50); (5121, 1, 57, 51);
   (4609, 0, 58, 52); (4609, 1, 59, 53); (4353, 0, 60, 54); (4353, 1, 61, 55);
   (2753, 0, 62, 56); (2753, 1, 63, 57); (2497, 0, 64, 58); (2497, 1, 65, 59);
   (2209, 0, 66, 60); (2209, 1, 67, 61); (1313, 0, 68, 62); (1313, 1, 69, 63);
   (1089, 0, 70, 64); (1089, 1, 71, 65); (673, 0, 72, 66); (673, 1, 73, 67);
   (545, 0, 74, 68); (545, 1, 75, 69); (321, 0, 76, 70); (321, 1, 77, 71);
   (273, 0, 78, 72); (273, 1, 79, 73); (133, 0, 80, 74); (133, 1, 81, 75);
   (73, 0, 82, 76); (73, 1, 83, 77); (37, 0, 84, 78); (37, 1, 85, 79);
   (21, 0, 86, 80); (21, 1, 87, 81); (9, 0, 88, 82); (9, 1, 89, 83);
   (5, 0, 90, 84); (5, 1, 91, 85); (1, 0, 90, 86); (1, 1, 91, 87);
   (22017, 0, 92, 92); (22017, 1, 93, 93)].

Definition state_at (i : Z) : Z * Z * Z * Z := nth (Z.to_nat i) mqc_states (0, 0, 0, 0).
Definition qe_of (i : Z) : Z := fst (fst (fst (state_at i))).
Definition mps_of (i : Z) : Z := snd (fst (fst (state_at i))).
Definition nmps_of (i : Z) : Z := snd (fst (state_at i)).
Definition nlps_of (i : Z) : Z := snd (state_at i).

(** mqc.rs:14-26, encoder use: [ctxs] maps a context to its state. *)
Record mqc := mkMqc { c : Z; a : Z; ct : Z; bp : Z; buf : mem; ctxs : mem; ok : bool }.

Definition set_c (s : mqc) (x : Z) : mqc := mkMqc x (a s) (ct s) (bp s) (buf s) (ctxs s) (ok s).
Definition set_a (s : mqc) (x : Z) : mqc := mkMqc (c s) x (ct s) (bp s) (buf s) (ctxs s) (ok s).
Definition set_ct (s : mqc) (x : Z) : mqc := mkMqc (c s) (a s) x (bp s) (buf s) (ctxs s) (ok s).
Definition set_bp (s : mqc) (x : Z) : mqc := mkMqc (c s) (a s) (ct s) x (buf s) (ctxs s) (ok s).
Definition set_ctxs (s : mqc) (x : mem) : mqc := mkMqc (c s) (a s) (ct s) (bp s) (buf s) x (ok s).
Definition check (b : bool) (s : mqc) : mqc := mkMqc (c s) (a s) (ct s) (bp s) (buf s) (ctxs s) (ok s && b).
(** mqc.rs:68-72 [write_byte]; [x as OPJ_BYTE]. *)
Definition write_byte (s : mqc) (x : Z) : mqc := mkMqc (c s) (a s) (ct s) (bp s) (upd (buf s) (bp s) (x mod 256)) (ctxs s) (ok s).
Definition cur (s : mqc) : Z := buf s (bp s).
Definition inc_bp (s : mqc) : mqc := set_bp s (bp s + 1).

(** [x << n] on u32. *)
Definition shl (x n : Z) : Z := u32 (Z.shiftl x n).

(** mqc.rs:745-748 (and 758-761), 750-753 (and 763-766): advance and write
    the top 8 bits of [c] from bit 20 or 19. *)
Definition emit7 (s : mqc) : mqc :=
  mkMqc (Z.land (c s) 0xFFFFF) (a s) 7 (bp s + 1) (upd (buf s) (bp s + 1) (Z.shiftr (c s) 20 mod 256)) (ctxs s) (ok s).
Definition emit8 (s : mqc) : mqc :=
  mkMqc (Z.land (c s) 0x7FFFF) (a s) 8 (bp s + 1) (upd (buf s) (bp s + 1) (Z.shiftr (c s) 19 mod 256)) (ctxs s) (ok s).

(** mqc.rs:740-769. *)
Definition byteout (start : Z) (s : mqc) : mqc :=
  let s := check (start - 1 <=? bp s) s in
  if cur s =? 255 then emit7 s
  else if Z.land (c s) 0x8000000 =? 0 then emit8 s
  else
    let s := write_byte s (cur s + 1) in
    if cur s =? 255 then emit7 (set_c s (Z.land (c s) 0x7FFFFFF))
    else emit8 s.

(** mqc.rs:249-261, one round and the loop. *)
Definition shift_enc (start : Z) (s : mqc) : mqc :=
  let s := mkMqc (shl (c s) 1) (shl (a s) 1) (u32 (ct s - 1)) (bp s) (buf s) (ctxs s) (ok s) in
  if ct s =? 0 then byteout start s else s.
Fixpoint renorme (fuel : nat) (start : Z) (s : mqc) : mqc :=
  match fuel with
  | O => check false s
  | S fuel => let s := shift_enc start s in
              if negb (Z.land (a s) 0x8000 =? 0) then s else renorme fuel start s
  end.
Definition rounds : nat := 32.

(** mqc.rs:264-277, 280-289, 292-298. *)
Definition codemps (start ctx : Z) (s : mqc) : mqc :=
  let i := ctxs s ctx in
  let s := set_a s (u32 (a s - qe_of i)) in
  if Z.land (a s) 0x8000 =? 0 then
    let s := if a s <? qe_of i then set_a s (qe_of i) else set_c s (u32 (c s + qe_of i)) in
    renorme rounds start (set_ctxs s (upd (ctxs s) ctx (nmps_of i)))
  else set_c s (u32 (c s + qe_of i)).
Definition codelps (start ctx : Z) (s : mqc) : mqc :=
  let i := ctxs s ctx in
  let s := set_a s (u32 (a s - qe_of i)) in
  let s := if a s <? qe_of i then set_c s (u32 (c s + qe_of i)) else set_a s (qe_of i) in
  renorme rounds start (set_ctxs s (upd (ctxs s) ctx (nlps_of i))).
Definition encode (start ctx d : Z) (s : mqc) : mqc :=
  if mps_of (ctxs s ctx) =? d then codemps start ctx s else codelps start ctx s.

(** mqc.rs:470-476 [opj_mqc_setbits]. *)
Definition setbits (s : mqc) : mqc :=
  let tempc := u32 (c s + a s) in
  let s := set_c s (Z.lor (c s) 0xFFFF) in
  if tempc <=? c s then set_c s (u32 (c s - 0x8000)) else s.

(** mqc.rs:482-485 [opj_mqc_numbytes]. *)
Definition numbytes (start : Z) (s : mqc) : Z := bp s - start.

(** mqc.rs:487-508 [opj_mqc_init_enc]; the contexts are set separately. *)
Definition init_enc (start : Z) (buf ctxs : mem) : mqc :=
  let s := mkMqc 0 0x8000 12 (start - 1) buf ctxs true in check (negb (cur s =? 255)) s.

(** mqc.rs:605-622 [opj_mqc_restart_init_enc]; [start] stays that of the
    code-block. *)
Definition restart_init_enc (start : Z) (s : mqc) : mqc :=
  let s := mkMqc 0 0x8000 12 (bp s - 1) (buf s) (ctxs s) (ok s) in
  let s := check (negb (cur s =? 255)) (check (start - 1 <=? bp s) s) in
  if cur s =? 255 then set_ct s 13 else s.

(** mqc.rs:510-524 [opj_mqc_flush]. *)
Definition flush (start : Z) (s : mqc) : mqc :=
  let s := setbits s in
  let s := byteout start (set_c s (shl (c s) (ct s))) in
  let s := byteout start (set_c s (shl (c s) (ct s))) in
  if negb (cur s =? 255) then inc_bp s else s.

(** mqc.rs:624-636 [opj_mqc_erterm_enc]. *)
Fixpoint erterm_loop (fuel : nat) (start k : Z) (s : mqc) : mqc :=
  if 0 <? k then
    match fuel with
    | O => check false s
    | S fuel => let s := byteout start (set_ct (set_c s (shl (c s) (ct s))) 0) in erterm_loop fuel start (k - ct s) s
    end
  else s.
Definition erterm_enc (start : Z) (s : mqc) : mqc :=
  let s := erterm_loop rounds start (11 - ct s + 1) s in
  if negb (cur s =? 255) then byteout start s else s.

(** mqc.rs:662-668 [opj_mqc_segmark_enc]. *)
Definition segmark_enc (start : Z) (s : mqc) : mqc :=
  encode start 18 0 (encode start 18 1 (encode start 18 0 (encode start 18 1 s))).

(** mqc.rs:730-738, 598-603: the initial states of the 19 contexts. *)
Definition setstate (m : mem) (ctxno msb prob : Z) : mem := upd m ctxno (msb + Z.shiftl prob 1).
Definition reset_ctxs : mem :=
  setstate (setstate (setstate (fun _ => 0) 18 0 46) 17 0 3) 0 0 4.

(** ** Decoder *)

(** mqc.rs:14-26, decoder use; [dbuf] is the data with the marker in place. *)
Record mqd := mkMqd { dc : Z; da : Z; dct : Z; eos : Z; dbp : Z; dend : Z; dbuf : mem; dctxs : mem; backup : Z * Z }.

Definition dset (s : mqd) (c' a' ct' : Z) : mqd := mkMqd c' a' ct' (eos s) (dbp s) (dend s) (dbuf s) (dctxs s) (backup s).
Definition dset_ctxs (s : mqd) (m : mem) : mqd := mkMqd (dc s) (da s) (dct s) (eos s) (dbp s) (dend s) (dbuf s) m (backup s).

(** mqc.rs:179-199. *)
Definition bytein (s : mqd) : mqd :=
  let l := dbuf s (dbp s + 1) in
  if dbuf s (dbp s) =? 255 then
    if 143 <? l then mkMqd (u32 (dc s + 0xFF00)) (da s) 8 (u32 (eos s + 1)) (dbp s) (dend s) (dbuf s) (dctxs s) (backup s)
    else mkMqd (u32 (dc s + Z.shiftl l 9)) (da s) 7 (eos s) (dbp s + 1) (dend s) (dbuf s) (dctxs s) (backup s)
  else mkMqd (u32 (dc s + Z.shiftl l 8)) (da s) 8 (eos s) (dbp s + 1) (dend s) (dbuf s) (dctxs s) (backup s).

(** mqc.rs:208-220. The result is [None] if the loop does not end. *)
Definition shift_dec (s : mqd) : mqd :=
  let s := if dct s =? 0 then bytein s else s in
  dset s (shl (dc s) 1) (shl (da s) 1) (u32 (dct s - 1)).
Fixpoint renormd (fuel : nat) (s : mqd) : option mqd :=
  match fuel with
  | O => None
  | S fuel => let s := shift_dec s in if 0x8000 <=? da s then Some s else renormd fuel s
  end.

(** mqc.rs:125-148, 223-241: the decoded symbol and the new state. *)
Definition decode (ctx : Z) (s : mqd) : option (Z * mqd) :=
  let i := dctxs s ctx in
  let a' := u32 (da s - qe_of i) in
  let other := if mps_of i =? 0 then 1 else 0 in
  let mps s := (mps_of i, dset_ctxs s (upd (dctxs s) ctx (nmps_of i))) in
  let lps s := (other, dset_ctxs s (upd (dctxs s) ctx (nlps_of i))) in
  if Z.shiftr (dc s) 16 <? qe_of i then
    let s := dset s (dc s) (qe_of i) (dct s) in
    let '(d, s) := if a' <? qe_of i then mps s else lps s in
    option_map (pair d) (renormd rounds s)
  else
    let s := dset s (u32 (dc s - shl (qe_of i) 16)) a' (dct s) in
    if Z.land a' 0x8000 =? 0 then
      let '(d, s) := if a' <? qe_of i then lps s else mps s in
      option_map (pair d) (renormd rounds s)
    else Some (mps_of i, s).

(** mqc.rs:102-110, 670-712 [opj_mqc_init_dec_common], [opj_mqc_init_dec]: the two bytes after the
    data are saved and replaced. *)
Definition with_marker (buf : mem) (e : Z) : mem := upd (upd buf e 255) (e + 1) 255.
Definition init_dec (buf : mem) (start len : Z) (ctxs : mem) : mqd :=
  let e := start + len in
  let m := with_marker buf e in
  let c0 := if len =? 0 then Z.shiftl 255 16 else Z.shiftl (m start) 16 in
  let s := bytein (mkMqd c0 0 0 0 start e m ctxs (buf e, buf (e + 1))) in
  dset s (shl (dc s) 7) 0x8000 (u32 (dct s - 7)).

(** mqc.rs:725-728, 112-117: the saved bytes are put back. *)
Definition finish_dec (s : mqd) : mem := upd (upd (dbuf s) (dend s) (fst (backup s))) (dend s + 1) (snd (backup s)).

(** ** Raw coder *)

(** mqc.rs:526-541 [opj_mqc_bypass_init_enc]. *)
Definition CT_INIT : Z := 0xDEADBEEF.
Definition bypass_init_enc (start : Z) (s : mqc) : mqc :=
  let s := check (start <=? bp s) s in
  check (negb (buf s (bp s - 1) =? 255)) (set_ct (set_c s 0) CT_INIT).

(** mqc.rs:301-317. [put_raw] is the part after the bit has been added. *)
Definition put_raw (ct' c' : Z) (s : mqc) : mqc :=
  if ct' =? 0 then
    mkMqc 0 (a s) (if c' mod 256 =? 255 then 7 else 8) (bp s + 1) (upd (buf s) (bp s) (c' mod 256)) (ctxs s) (ok s)
  else mkMqc c' (a s) ct' (bp s) (buf s) (ctxs s) (ok s).
Definition bypass_enc (d : Z) (s : mqc) : mqc :=
  let ct' := u32 ((if ct s =? CT_INIT then 8 else ct s) - 1) in
  put_raw ct' (u32 (c s + shl d (ct' mod 32))) s.

(** mqc.rs:547-556. *)
Definition bypass_extra_bytes (erterm : bool) (s : mqc) : Z :=
  if (ct s <? 7) || ((ct s =? 7) && (erterm || negb (buf s (bp s - 1) =? 255))) then 1 else 0.

(** mqc.rs:566-574: the padding loop ([ct] rounds). *)
Fixpoint pad (n : nat) (bit ct c : Z) : Z :=
  match n with O => c | S n => pad n (1 - bit) (ct - 1) (u32 (c + shl bit (ct - 1))) end.

(** mqc.rs:558-596 [opj_mqc_bypass_flush_enc]; the last assertion is in
    [bypass_flush_enc]. *)
Definition bypass_tail (erterm : bool) (s : mqc) : mqc :=
  if (ct s <? 7) || ((ct s =? 7) && (erterm || negb (buf s (bp s - 1) =? 255))) then
    let x := pad (Z.to_nat (ct s)) 0 (ct s) (c s) in
    mkMqc x (a s) 0 (bp s + 1) (upd (buf s) (bp s) (x mod 256)) (ctxs s) (ok s)
  else if (ct s =? 7) && (buf s (bp s - 1) =? 255) then set_bp (check (negb erterm) s) (bp s - 1)
  else if (ct s =? 8) && negb erterm && (buf s (bp s - 1) =? 0x7F) && (buf s (bp s - 2) =? 255) then set_bp s (bp s - 2)
  else s.
Definition bypass_flush_enc (erterm : bool) (s : mqc) : mqc :=
  let s := bypass_tail erterm s in check (negb (buf s (bp s - 1) =? 255)) s.

(** mqc.rs:714-723 [opj_mqc_raw_init_dec]. *)
Definition raw_init_dec (buf : mem) (start len : Z) (ctxs : mem) : mqd :=
  let e := start + len in
  mkMqd 0 0 0 0 start e (with_marker buf e) ctxs (buf e, buf (e + 1)).

(** mqc.rs:154-176 [opj_mqc_raw_decode]. *)
Definition raw_decode (s : mqd) : Z * mqd :=
  let next ct' := mkMqd (dbuf s (dbp s)) (da s) ct' (eos s) (dbp s + 1) (dend s) (dbuf s) (dctxs s) (backup s) in
  let s :=
    if dct s =? 0 then
      if dc s =? 255 then
        if 143 <? dbuf s (dbp s) then dset s 255 (da s) 8 else next 7
      else next 8
    else s in
  let s := dset s (dc s) (da s) (u32 (dct s - 1)) in
  (Z.land (Z.shiftr (dc s) (dct s mod 32)) 1, s).
