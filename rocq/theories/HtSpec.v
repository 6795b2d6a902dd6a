(** What the bit-streams of a high-throughput code-block hold (ITU-T T.814, 7.1):
    the bits of the bytes without the stuffed ones, MEL events (7.3.3) and the
    codes of u values (7.3.6). *)

From Coq Require Import ZArith List Bool.
Import ListNotations.
Local Open Scope Z_scope.

(** The [n] lowest bits of a byte, lowest first. *)
Definition low_bits (n : nat) (d : Z) : list bool := map (fun i => Z.testbit d (Z.of_nat i)) (seq 0 n).
(** Number with the given bits, lowest first. *)
Fixpoint number (l : list bool) : Z := match l with [] => 0 | b :: l => (if b then 1 else 0) + 2 * number l end.

(** MagSgn and SPP, first byte first: a byte after 255 has seven bits. *)
Fixpoint fwd_bits (after : bool) (l : list Z) : list bool :=
  match l with [] => [] | d :: l => low_bits (if after then 7 else 8) d ++ fwd_bits (d =? 255) l end.
(** VLC and MRP, last byte first: a byte has seven bits if those are ones and the
    byte before it is more than 143. *)
Fixpoint bwd_bits (after : bool) (l : list Z) : list bool :=
  match l with [] => [] | d :: l => low_bits (if after && (d mod 128 =? 127) then 7 else 8) d ++ bwd_bits (143 <? d) l end.
(** VLC: of the first byte only the upper half counts; its lower half is taken to
    be ones. *)
Definition vlc_bits (l : list Z) : list bool :=
  match l with
  | [] => []
  | d :: l => let h := d / 16 in low_bits (if h mod 8 =? 7 then 3 else 4) h ++ bwd_bits (143 <? 16 * h + 15) l
  end.
(** MEL, highest bit first. *)
Fixpoint mel_bits (after : bool) (l : list Z) : list bool :=
  match l with [] => [] | d :: l => rev (low_bits (if after then 7 else 8) d) ++ mel_bits (d =? 255) l end.

(** The 32 bits seen before each of the steps [ns], which take that many bits. *)
Fixpoint words (l : list bool) (ns : list Z) : list Z :=
  match ns with [] => [] | n :: ns => number (firstn 32 l) :: words (skipn (Z.to_nat n) l) ns end.

(** The bits seen after each of the steps [ns], as many as are left of [left]; and
    for turns, each of which begins with 32 bits. *)
Fixpoint seen (l : list bool) (left : Z) (ns : list Z) : list Z :=
  match ns with [] => [] | n :: ns => number (firstn (Z.to_nat (left - n)) (skipn (Z.to_nat n) l)) :: seen (skipn (Z.to_nat n) l) (left - n) ns end.
Definition total (ns : list Z) : Z := fold_right Z.add 0 ns.
Fixpoint seen_turns (l : list bool) (turns : list (list Z)) : list (list Z) :=
  match turns with [] => [] | ns :: turns => (number (firstn 32 l) :: seen l 32 ns) :: seen_turns (skipn (Z.to_nat (total ns)) l) turns end.

(** The last byte of the MEL segment has its low four bits in common with the
    length of the segments; they count as ones. *)
Fixpoint fix_last (l : list Z) : list Z := match l with [] => [] | d :: l => match l with [] => [Z.lor d 15] | _ => d :: fix_last l end end.
(** MEL events: state [k], zeros to come [run], and whether a one comes after
    them; [None] if the bits run out. *)
Definition mel_E : list nat := [0; 0; 0; 1; 1; 1; 2; 2; 2; 3; 3; 4; 5]%nat.
Record mel_state := mkMS { ms_k : nat; ms_run : nat; ms_one : bool; ms_bits : list bool }.
Fixpoint take_msb (n : nat) (acc : nat) (l : list bool) : option (nat * list bool) :=
  match n, l with
  | O, _ => Some (acc, l)
  | S n, b :: l => take_msb n (2 * acc + if b then 1 else 0) l
  | S _, [] => None
  end.
Definition mel_refill (s : mel_state) : option mel_state :=
  if (Nat.eqb (ms_run s) 0) && negb (ms_one s) then
    let e := nth (ms_k s) mel_E 0%nat in
    match ms_bits s with
    | [] => None
    | true :: l => Some (mkMS (Nat.min 12 (ms_k s + 1)) (2 ^ e) false l)
    | false :: l => match take_msb e 0 l with Some (r, l) => Some (mkMS (ms_k s - 1) r true l) | None => None end
    end
  else Some s.
Definition mel_sym (s : mel_state) : option (bool * mel_state) :=
  match mel_refill s with
  | None => None
  | Some s =>
      match ms_run s with
      | S r => Some (false, mkMS (ms_k s) r (ms_one s) (ms_bits s))
      | O => Some (true, mkMS (ms_k s) 0 false (ms_bits s))
      end
  end.
Fixpoint mel_syms (n : nat) (s : mel_state) : option (list bool) :=
  match n with
  | O => Some []
  | S n => match mel_sym s with Some (e, s) => match mel_syms n s with Some l => Some (e :: l) | None => None end | None => None end
  end.

(** Codes of u (Table 3): prefix 1, 01, 001, 000; what it stands for and the
    length of the suffix. *)
Definition u_prefix (l : list bool) : option (Z * nat * list bool) :=
  match l with
  | true :: l => Some (1, 0%nat, l)
  | false :: true :: l => Some (2, 0%nat, l)
  | false :: false :: true :: l => Some (3, 1%nat, l)
  | false :: false :: false :: l => Some (5, 5%nat, l)
  | _ => None
  end.
(** Both u values of a pair: first prefix, second prefix, first suffix, second suffix. *)
Definition u_pair (l : list bool) : option (Z * Z * list bool) :=
  match u_prefix l with
  | None => None
  | Some (p1, n1, l) =>
      match u_prefix l with
      | None => None
      | Some (p2, n2, l) => Some (p1 + number (firstn n1 l), p2 + number (firstn n2 (skipn n1 l)), skipn (n1 + n2) l)
      end
  end.
Definition u_one (l : list bool) : option (Z * list bool) :=
  match u_prefix l with None => None | Some (p, n, l) => Some (p + number (firstn n l), skipn n l) end.
