(** Model of openjp2-rs/src/bio.rs: bit-wise packet header input and output. *)

From Coq Require Import ZArith List Bool.
Import ListNotations.
Local Open Scope Z_scope.

(** ** Writer *)

(** bio.rs:6-12 [opj_bio] while encoding.  [w_out] are the bytes between [start]
    and [bp], last written first; [w_room] is [end - bp].  [buf] and [ct] are
    the u32 fields (all values stay below 2^16, so no wrapping is involved). *)
Record bio_w : Type := mkW { w_out : list Z; w_room : nat; w_buf : Z; w_ct : Z }.

(** bio.rs:118-128 [opj_bio_init_enc]. *)
Definition init_enc (len : nat) : bio_w := mkW [] len 0 8.

(** bio.rs:23-33 [opj_bio_byteout]. *)
Definition byteout (b : bio_w) : bio_w * bool :=
  let buf := Z.land (Z.shiftl (w_buf b) 8) 65535 in
  let ct := if buf =? 65280 then 7 else 8 in
  match w_room b with
  | O => (mkW (w_out b) O buf ct, false)
  | S r => (mkW (Z.land (Z.shiftr buf 8) 255 :: w_out b) r buf ct, true)
  end.

(** bio.rs:146-153 [opj_bio_putbit]; the result of [byteout] is ignored. *)
Definition putbit (b : bio_w) (bit : Z) : bio_w :=
  let b := if w_ct b =? 0 then fst (byteout b) else b in
  let ct := w_ct b - 1 in
  mkW (w_out b) (w_room b) (Z.lor (w_buf b) (Z.shiftl bit ct)) ct.

(** bio.rs:158-162, the loop of [opj_bio_write] from bit [i-1] down to 0. *)
Fixpoint write_loop (i : nat) (b : bio_w) (v : Z) : bio_w :=
  match i with
  | O => b
  | S i => write_loop i (putbit b (Z.land (Z.shiftr v (Z.of_nat i)) 1)) v
  end.

(** bio.rs:155-163 [opj_bio_write]; [None] is the failed assertion on the width. *)
Definition bio_write (b : bio_w) (v : Z) (n : Z) : option bio_w :=
  if (0 <? n) && (n <=? 32) then Some (write_loop (Z.to_nat n) b v) else None.

(** bio.rs:179-187 [opj_bio_flush]. *)
Definition flush (b : bio_w) : bio_w * bool :=
  let '(b, ok) := byteout b in
  if ok then
    if w_ct b =? 7 then byteout b else (b, true)
  else (b, false).

(** bio.rs:114-116 [opj_bio_numbytes] (encoder). *)
Definition w_numbytes (b : bio_w) : Z := Z.of_nat (List.length (w_out b)).

(** ** Reader *)

(** [opj_bio] while decoding: [r_in] are the bytes between [bp] and [end],
    [r_pos] is [bp - start]. *)
Record bio_r : Type := mkR { r_in : list Z; r_pos : Z; r_buf : Z; r_ct : Z }.

(** bio.rs:130-140 [opj_bio_init_dec]. *)
Definition init_dec (bytes : list Z) : bio_r := mkR bytes 0 0 0.

(** bio.rs:38-48 [opj_bio_bytein]. *)
Definition bytein (b : bio_r) : bio_r * bool :=
  let buf := Z.land (Z.shiftl (r_buf b) 8) 65535 in
  let ct := if buf =? 65280 then 7 else 8 in
  match r_in b with
  | [] => (mkR [] (r_pos b) buf ct, false)
  | x :: r => (mkR r (r_pos b + 1) (Z.lor buf x) ct, true)
  end.

(** bio.rs:91-98 [opj_bio_getbit]; the result of [bytein] is ignored. *)
Definition getbit (b : bio_r) : Z * bio_r :=
  let b := if r_ct b =? 0 then fst (bytein b) else b in
  let ct := r_ct b - 1 in
  (Z.land (Z.shiftr (r_buf b) ct) 1, mkR (r_in b) (r_pos b) (r_buf b) ct).

(** bio.rs:169-176, the loop of [opj_bio_read]. *)
Fixpoint read_loop (i : nat) (b : bio_r) (v : Z) : Z * bio_r :=
  match i with
  | O => (v, b)
  | S i =>
      let '(x, b) := getbit b in
      read_loop i b (Z.lor v (Z.shiftl x (Z.of_nat i)))
  end.

(** bio.rs:165-177 [opj_bio_read]; [None] is the failed assertion for a zero
    width, or (for a width above 32, where the u32 shift amount is out of
    range) the overflow panic of a checked build. *)
Definition bio_read (b : bio_r) (n : Z) : option (Z * bio_r) :=
  if (0 <? n) && (n <=? 32) then Some (read_loop (Z.to_nat n) b 0) else None.

(** bio.rs:189-195 [opj_bio_inalign]. *)
Definition inalign (b : bio_r) : bio_r * bool :=
  if Z.land (r_buf b) 255 =? 255 then
    let '(b, ok) := bytein b in
    if ok then (mkR (r_in b) (r_pos b) (r_buf b) 0, true) else (b, false)
  else (mkR (r_in b) (r_pos b) (r_buf b) 0, true).

(** bio.rs:114-116 [opj_bio_numbytes] (decoder). *)
Definition r_numbytes (b : bio_r) : Z := r_pos b.

(** ** Client histories *)

(** A sequence of [opj_bio_write] calls with (value, width). *)
Fixpoint write_fields (b : bio_w) (l : list (Z * Z)) : option bio_w :=
  match l with
  | [] => Some b
  | (v, n) :: r => match bio_write b v n with Some b => write_fields b r | None => None end
  end.

(** A sequence of [opj_bio_read] calls with the given widths. *)
Fixpoint read_fields (b : bio_r) (l : list Z) : option (list Z * bio_r) :=
  match l with
  | [] => Some ([], b)
  | n :: r =>
      match bio_read b n with
      | None => None
      | Some (v, b) => match read_fields b r with Some (vs, b) => Some (v :: vs, b) | None => None end
      end
  end.

(** A sequence of [opj_bio_putbit] calls. *)
Definition putbits (b : bio_w) (l : list bool) : bio_w :=
  fold_left (fun (b : bio_w) (x : bool) => putbit b (if x then 1 else 0)) l b.
