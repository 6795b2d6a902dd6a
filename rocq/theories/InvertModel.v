(** Model of invert.rs: LUP inversion of the matrix of a custom component
    transform. The float type and its operations are parameters: nothing below
    depends on them. [Panic] is an index out of bounds, a slice out of bounds or
    a length mismatch in [copy_from_slice]; usize arithmetic wraps (release
    build; with overflow checks it would panic). *)

From Coq Require Import ZArith List Bool.
Import ListNotations.
Local Open Scope Z_scope.

Inductive outcome (A : Type) := Panic | Ret (a : A).
Arguments Panic {A}.
Arguments Ret {A} a.

Definition bind {A B} (x : outcome A) (f : A -> outcome B) : outcome B :=
  match x with Panic => Panic | Ret a => f a end.
Notation "'let*' x ':=' e 'in' k" := (bind e (fun x => k)) (at level 200, x pattern, right associativity).

Definition usize (x : Z) : Z := x mod 2 ^ 64.

(** Indexing: the index is a usize. *)
Definition get {A} (l : list A) (i : Z) : outcome A :=
  if i <? Z.of_nat (length l) then match nth_error l (Z.to_nat i) with Some a => Ret a | None => Panic end else Panic.
Definition set {A} (l : list A) (i : Z) (a : A) : outcome (list A) :=
  if i <? Z.of_nat (length l) then Ret (firstn (Z.to_nat i) l ++ a :: skipn (S (Z.to_nat i)) l) else Panic.
(** [&l[a..b]] *)
Definition slice {A} (l : list A) (a b : Z) : outcome (list A) :=
  if (a <=? b) && (b <=? Z.of_nat (length l)) then Ret (firstn (Z.to_nat (b - a)) (skipn (Z.to_nat a) l)) else Panic.
(** [dst.copy_from_slice(src)] *)
Definition copy_from_slice {A} (dst src : list A) : outcome (list A) :=
  if (length dst =? length src)%nat then Ret src else Panic.
(** Overwriting [l[a..]] by a slice of the same length as its target. *)
Definition splice {A} (l : list A) (a : Z) (s : list A) : outcome (list A) :=
  if a + Z.of_nat (length s) <=? Z.of_nat (length l)
  then Ret (firstn (Z.to_nat a) l ++ s ++ skipn (Z.to_nat a + length s) l) else Panic.

(** [for i in lo..lo+n] over an outcome. *)
Fixpoint loop {A} (n : nat) (i : Z) (f : Z -> A -> outcome A) (s : A) : outcome A :=
  match n with O => Ret s | S n => let* s := f i s in loop n (i + 1) f s end.

Section Invert.
  Variables (F : Type) (zero one : F).
  Variables (fabs : F -> F) (fgt feq : F -> F -> bool) (fadd fsub fmul fdiv : F -> F -> F).

  (** invert.rs:101-112: the largest element of a column from row [k]; state
      (column index, largest, row of it). *)
  Definition pivot (n k : Z) (m : list F) (st : Z * F * Z) : outcome (Z * F * Z) :=
    loop (Z.to_nat (n - k)) k (fun i st =>
      let '(col, p, k2) := st in
      let* v := get m col in
      let t := fabs v in
      let '(p, k2) := if fgt t p then (t, i) else (p, k2) in
      Ret (usize (col + n), p, k2)) st.

  (** invert.rs:118-131: exchange of two rows. *)
  Definition exchange (n k k2 tmp : Z) (m : list F) (perm : list Z) (swap : list F) : outcome (list F * list Z * list F) :=
    let size := usize (n * 4) in
    let dst := usize (k2 - k) in
    let* a := get perm 0 in
    let* b := get perm dst in
    let* perm := set perm 0 b in
    let* perm := set perm dst a in
    let col := usize (tmp + usize (usize (k2 - k) * n)) in
    let* s := slice m col (usize (col + size)) in
    let* swap := copy_from_slice swap s in
    let* s := slice m tmp (usize (tmp + size)) in
    let* m := splice m col s in
    let* s := slice swap 0 size in
    let* _ := slice m tmp (usize (tmp + size)) in
    let* m := splice m tmp s in
    Ret (m, perm, swap).

  (** invert.rs:133-151: elimination; state (matrix, row index, column index). *)
  Definition eliminate (n k tmp offset stride : Z) (m : list F) : outcome (list F) :=
    let dest := usize (tmp + k) in
    let col := usize (dest + n) in
    let* t := get m dest in
    let dest := usize (dest + 1) in
    let* st := loop (Z.to_nat (n - offset)) offset (fun _ st =>
      let '(m, dest, col) := st in
      let* v := get m col in
      let p := fdiv v t in
      let col := usize (col + 1) in
      let* m := set m col p in
      let* m := loop (Z.to_nat (n - offset)) offset (fun j m =>
        let* x := get m (usize (dest + j)) in
        let* y := get m (usize (usize (dest + j) - 1)) in
        set m (usize (dest + j)) (fsub x (fmul p y))) m in
      Ret (m, usize (dest - stride), usize (col + k))) (m, dest, col) in
    Ret (fst (fst st)).

  (** invert.rs:74-158; [None] is the result false. [k2] keeps its value from
      one column to the next; [tmp_permutations] stays 0 in the code. *)
  Fixpoint columns (fuel : nat) (n k k2 tmp offset stride : Z) (m : list F) (perm : list Z) (swap : list F)
    : outcome (option (list F * list Z)) :=
    match fuel with
    | O => Ret (Some (m, perm))
    | S fuel =>
        let* st := pivot n k m (usize (tmp + k), zero, k2) in
        let '(_, p, k2) := st in
        if feq p zero then Ret None
        else
          let* st := (if k2 =? k then Ret (m, perm, swap) else exchange n k k2 tmp m perm swap) in
          let '(m, perm, swap) := st in
          let* m := eliminate n k tmp offset stride m in
          columns fuel n (k + 1) k2 (usize (tmp + n)) (offset + 1) (usize (stride - 1)) m perm swap
    end.
  Definition lup_decompose (n : Z) (m : list F) (perm : list Z) (swap : list F) : outcome (option (list F * list Z)) :=
    let* perm := loop (Z.to_nat n) 0 (fun i p => set p i i) perm in
    columns (Z.to_nat (usize (n - 1))) n 0 0 0 1 (usize (n - 1)) m perm swap.

  (** invert.rs:188-207: forward substitution; state (line index, intermediate). *)
  Definition forward (n : Z) (matrix vector : list F) (perm : list Z) (inter : list F) : outcome (list F) :=
    let* st := loop (Z.to_nat n) 0 (fun i st =>
      let '(line, inter) := st in
      let* s := loop (Z.to_nat i) 0 (fun j s =>
        let* a := get matrix (usize (line + j)) in
        let* b := get inter j in
        Ret (fadd s (fmul a b))) zero in
      let* q := get perm i in
      let* v := get vector q in
      let* inter := set inter i (fsub v s) in
      Ret (usize (line + n), inter)) (0, inter) in
    Ret (snd st).

  (** invert.rs:208-226: backward substitution, from [k = n - 1] down to 0. *)
  Fixpoint backward (fuel : nat) (n k line begin_ dest gen : Z) (matrix inter result : list F) : outcome (list F) :=
    match fuel with
    | O => Ret result
    | S fuel =>
        let* u := get matrix line in
        let* s := loop (Z.to_nat (n - (k + 1))) 0 (fun j s =>
          let* a := get matrix (usize (line + j)) in
          let* b := get result (usize (dest + j)) in
          Ret (fadd s (fmul a b))) zero in
        let* g := get inter gen in
        let* result := set result begin_ (fdiv (fsub g s) u) in
        backward fuel n (k - 1) (usize (line - (n + 1))) (usize (begin_ - 1)) (usize (dest - 1)) (usize (gen - 1)) matrix inter result
    end.

  (** invert.rs:161-227 *)
  Definition lup_solve (n : Z) (result matrix vector : list F) (perm : list Z) (inter : list F) : outcome (list F) :=
    let begin_ := usize (Z.of_nat (length result) - 1) in
    let gen := usize (n - 1) in
    let* inter := forward n matrix vector perm inter in
    let line := usize (usize (Z.of_nat (length matrix) - n) - 1) in
    if n =? 0 then Panic
    else backward (Z.to_nat n) n (n - 1) line begin_ n gen matrix inter result.

  (** invert.rs:230-262; state (destination matrix, temporary vectors). *)
  Definition lup_invert (n : Z) (m : list F) (perm : list Z) (dst src_tmp dst_tmp swap : list F) : outcome (list F) :=
    let* st := loop (Z.to_nat n) 0 (fun j st =>
      let '(dst, dst_tmp) := st in
      let* _ := slice dst (usize (j + 1)) (Z.of_nat (length dst)) in
      let* src_tmp := set (repeat zero (length src_tmp)) j one in
      let* src := slice src_tmp 0 n in
      let* d := slice dst_tmp 0 n in
      let* mm := slice m 0 (usize (n * n)) in
      let* pp := slice perm 0 n in
      let* sw := slice swap 0 n in
      let* d := lup_solve n d mm src pp sw in
      let* dst := loop (Z.to_nat n) 0 (fun i dst =>
        let* x := get d i in
        set dst (usize (j + 1) + usize (i * n)) x) dst in
      Ret (dst, d)) (dst, dst_tmp) in
    Ret (fst st).

  (** invert.rs:9-40; the result and the destination matrix. *)
  Definition matrix_inversion (n : Z) (m dst : list F) : outcome (bool * list F) :=
    let z := repeat zero (Z.to_nat n) in
    let* r := lup_decompose n m (repeat 0 (Z.to_nat n)) z in
    match r with
    | None => Ret (false, dst)
    | Some (m, perm) =>
        let* dst := lup_invert n m perm dst z z z in
        Ret (true, dst)
    end.
End Invert.
