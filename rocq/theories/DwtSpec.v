(** The 5/3 transform of one line in closed form, without memory or loops. *)

From Coq Require Import ZArith List Lia.
From Verif Require Import I32 Mem DwtModel.
Local Open Scope Z_scope.

(** Numbers of low-pass and high-pass samples of a line of [n] samples that
    starts at a coordinate of parity [cas], and the positions of those samples. *)
Definition nlow (cas n : Z) : Z := (n + 1 - cas) / 2.
Definition nhigh (cas n : Z) : Z := n - nlow cas n.
Definition lowp (cas i : Z) : Z := 2 * i + cas.
Definition highp (cas i : Z) : Z := 2 * i + 1 - cas.

(** High-pass and low-pass coefficients. At a border where only one low-pass
    neighbour exists it is used alone. *)
Definition fhigh (cas n : Z) (x : Z -> Z) (i : Z) : Z :=
  let a := clamp (nlow cas n) (i - cas) in
  let b := clamp (nlow cas n) (i - cas + 1) in
  i32 (x (highp cas i) - (if a =? b then x (lowp cas a) else half (x (lowp cas a)) (x (lowp cas b)))).
Definition flow (cas n : Z) (x : Z -> Z) (i : Z) : Z :=
  i32 (x (lowp cas i) +
       quarter (fhigh cas n x (clamp (nhigh cas n) (i - 1 + cas))) (fhigh cas n x (clamp (nhigh cas n) (i + cas)))).
(** The transformed line: low-pass samples first. *)
Definition fline (cas n : Z) (x : Z -> Z) (k : Z) : Z :=
  if n =? 1 then (if cas =? 0 then x k else i32 (x k * 2))
  else if k <? nlow cas n then flow cas n x k else fhigh cas n x (k - nlow cas n).

Definition ilow (cas n : Z) (y : Z -> Z) (i : Z) : Z :=
  i32 (y i - quarter (y (nlow cas n + clamp (nhigh cas n) (i - 1 + cas))) (y (nlow cas n + clamp (nhigh cas n) (i + cas)))).
Definition ihigh (cas n : Z) (y : Z -> Z) (i : Z) : Z :=
  i32 (y (nlow cas n + i) + half (ilow cas n y (clamp (nlow cas n) (i - cas))) (ilow cas n y (clamp (nlow cas n) (i - cas + 1)))).
Definition iline (cas n : Z) (y : Z -> Z) (p : Z) : Z :=
  if n =? 1 then (if cas =? 0 then y p else Z.quot (y p) 2)
  else if p mod 2 =? cas then ilow cas n y (p / 2) else ihigh cas n y (p / 2).

(** Samples small enough not to overflow when doubled. *)
Definition small (x : Z) : Prop := - 2 ^ 30 <= x < 2 ^ 30.
