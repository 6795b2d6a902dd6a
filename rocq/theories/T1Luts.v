(** The context tables of block coding, openjp2-rs/src/t1_luts.rs.

    The distortion tables (t1_luts.rs:111-157) are not modelled: they only feed
    the rate control. *)

From Coq Require Import ZArith List.
Import ListNotations.
Local Open Scope Z_scope.

(** t1_luts.rs:3-83, one table per sub-band orientation (0 LL, 1 HL, 2 LH, 3 HH). *)
Definition lut_zc_0 : list Z :=
  [
   0; 1; 3; 3; 1; 2; 3; 3; 5; 6; 7; 7; 6; 6; 7; 7; 0; 1; 3; 3; 1; 2; 3; 3; 5; 6; 7; 7; 6; 6; 7; 7; 5; 6; 7; 7; 6; 6;
   7; 7; 8; 8; 8; 8; 8; 8; 8; 8; 5; 6; 7; 7; 6; 6; 7; 7; 8; 8; 8; 8; 8; 8; 8; 8; 1; 2; 3; 3; 2; 2; 3; 3; 6; 6; 7; 7;
   6; 6; 7; 7; 1; 2; 3; 3; 2; 2; 3; 3; 6; 6; 7; 7; 6; 6; 7; 7; 6; 6; 7; 7; 6; 6; 7; 7; 8; 8; 8; 8; 8; 8; 8; 8; 6; 6;
   7; 7; 6; 6; 7; 7; 8; 8; 8; 8; 8; 8; 8; 8; 3; 3; 4; 4; 3; 3; 4; 4; 7; 7; 7; 7; 7; 7; 7; 7; 3; 3; 4; 4; 3; 3; 4; 4;
   7; 7; 7; 7; 7; 7; 7; 7; 7; 7; 7; 7; 7; 7; 7; 7; 8; 8; 8; 8; 8; 8; 8; 8; 7; 7; 7; 7; 7; 7; 7; 7; 8; 8; 8; 8; 8; 8;
   8; 8; 3; 3; 4; 4; 3; 3; 4; 4; 7; 7; 7; 7; 7; 7; 7; 7; 3; 3; 4; 4; 3; 3; 4; 4; 7; 7; 7; 7; 7; 7; 7; 7; 7; 7; 7; 7;
   7; 7; 7; 7; 8; 8; 8; 8; 8; 8; 8; 8; 7; 7; 7; 7; 7; 7; 7; 7; 8; 8; 8; 8; 8; 8; 8; 8; 1; 2; 3; 3; 2; 2; 3; 3; 6; 6;
   7; 7; 6; 6; 7; 7; 1; 2; 3; 3; 2; 2; 3; 3; 6; 6; 7; 7; 6; 6; 7; 7; 6; 6; 7; 7; 6; 6; 7; 7; 8; 8; 8; 8; 8; 8; 8; 8;
   6; 6; 7; 7; 6; 6; 7; 7; 8; 8; 8; 8; 8; 8; 8; 8; 2; 2; 3; 3; 2; 2; 3; 3; 6; 6; 7; 7; 6; 6; 7; 7; 2; 2; 3; 3; 2; 2;
   3; 3; 6; 6; 7; 7; 6; 6; 7; 7; 6; 6; 7; 7; 6; 6; 7; 7; 8; 8; 8; 8; 8; 8; 8; 8; 6; 6; 7; 7; 6; 6; 7; 7; 8; 8; 8; 8;
   8; 8; 8; 8; 3; 3; 4; 4; 3; 3; 4; 4; 7; 7; 7; 7; 7; 7; 7; 7; 3; 3; 4; 4; 3; 3; 4; 4; 7; 7; 7; 7; 7; 7; 7; 7; 7; 7;
   7; 7; 7; 7; 7; 7; 8; 8; 8; 8; 8; 8; 8; 8; 7; 7; 7; 7; 7; 7; 7; 7; 8; 8; 8; 8; 8; 8; 8; 8; 3; 3; 4; 4; 3; 3; 4; 4;
   7; 7; 7; 7; 7; 7; 7; 7; 3; 3; 4; 4; 3; 3; 4; 4; 7; 7; 7; 7; 7; 7; 7; 7; 7; 7; 7; 7; 7; 7; 7; 7; 8; 8; 8; 8; 8; 8;
   8; 8; 7; 7; 7; 7; 7; 7; 7; 7; 8; 8; 8; 8; 8; 8; 8; 8].
Definition lut_zc_1 : list Z :=
  [
   0; 1; 5; 6; 1; 2; 6; 6; 3; 3; 7; 7; 3; 3; 7; 7; 0; 1; 5; 6; 1; 2; 6; 6; 3; 3; 7; 7; 3; 3; 7; 7; 3; 3; 7; 7; 3; 3;
   7; 7; 4; 4; 7; 7; 4; 4; 7; 7; 3; 3; 7; 7; 3; 3; 7; 7; 4; 4; 7; 7; 4; 4; 7; 7; 1; 2; 6; 6; 2; 2; 6; 6; 3; 3; 7; 7;
   3; 3; 7; 7; 1; 2; 6; 6; 2; 2; 6; 6; 3; 3; 7; 7; 3; 3; 7; 7; 3; 3; 7; 7; 3; 3; 7; 7; 4; 4; 7; 7; 4; 4; 7; 7; 3; 3;
   7; 7; 3; 3; 7; 7; 4; 4; 7; 7; 4; 4; 7; 7; 5; 6; 8; 8; 6; 6; 8; 8; 7; 7; 8; 8; 7; 7; 8; 8; 5; 6; 8; 8; 6; 6; 8; 8;
   7; 7; 8; 8; 7; 7; 8; 8; 7; 7; 8; 8; 7; 7; 8; 8; 7; 7; 8; 8; 7; 7; 8; 8; 7; 7; 8; 8; 7; 7; 8; 8; 7; 7; 8; 8; 7; 7;
   8; 8; 6; 6; 8; 8; 6; 6; 8; 8; 7; 7; 8; 8; 7; 7; 8; 8; 6; 6; 8; 8; 6; 6; 8; 8; 7; 7; 8; 8; 7; 7; 8; 8; 7; 7; 8; 8;
   7; 7; 8; 8; 7; 7; 8; 8; 7; 7; 8; 8; 7; 7; 8; 8; 7; 7; 8; 8; 7; 7; 8; 8; 7; 7; 8; 8; 1; 2; 6; 6; 2; 2; 6; 6; 3; 3;
   7; 7; 3; 3; 7; 7; 1; 2; 6; 6; 2; 2; 6; 6; 3; 3; 7; 7; 3; 3; 7; 7; 3; 3; 7; 7; 3; 3; 7; 7; 4; 4; 7; 7; 4; 4; 7; 7;
   3; 3; 7; 7; 3; 3; 7; 7; 4; 4; 7; 7; 4; 4; 7; 7; 2; 2; 6; 6; 2; 2; 6; 6; 3; 3; 7; 7; 3; 3; 7; 7; 2; 2; 6; 6; 2; 2;
   6; 6; 3; 3; 7; 7; 3; 3; 7; 7; 3; 3; 7; 7; 3; 3; 7; 7; 4; 4; 7; 7; 4; 4; 7; 7; 3; 3; 7; 7; 3; 3; 7; 7; 4; 4; 7; 7;
   4; 4; 7; 7; 6; 6; 8; 8; 6; 6; 8; 8; 7; 7; 8; 8; 7; 7; 8; 8; 6; 6; 8; 8; 6; 6; 8; 8; 7; 7; 8; 8; 7; 7; 8; 8; 7; 7;
   8; 8; 7; 7; 8; 8; 7; 7; 8; 8; 7; 7; 8; 8; 7; 7; 8; 8; 7; 7; 8; 8; 7; 7; 8; 8; 7; 7; 8; 8; 6; 6; 8; 8; 6; 6; 8; 8;
   7; 7; 8; 8; 7; 7; 8; 8; 6; 6; 8; 8; 6; 6; 8; 8; 7; 7; 8; 8; 7; 7; 8; 8; 7; 7; 8; 8; 7; 7; 8; 8; 7; 7; 8; 8; 7; 7;
   8; 8; 7; 7; 8; 8; 7; 7; 8; 8; 7; 7; 8; 8; 7; 7; 8; 8].
Definition lut_zc_2 : list Z :=
  [
   0; 1; 3; 3; 1; 2; 3; 3; 5; 6; 7; 7; 6; 6; 7; 7; 0; 1; 3; 3; 1; 2; 3; 3; 5; 6; 7; 7; 6; 6; 7; 7; 5; 6; 7; 7; 6; 6;
   7; 7; 8; 8; 8; 8; 8; 8; 8; 8; 5; 6; 7; 7; 6; 6; 7; 7; 8; 8; 8; 8; 8; 8; 8; 8; 1; 2; 3; 3; 2; 2; 3; 3; 6; 6; 7; 7;
   6; 6; 7; 7; 1; 2; 3; 3; 2; 2; 3; 3; 6; 6; 7; 7; 6; 6; 7; 7; 6; 6; 7; 7; 6; 6; 7; 7; 8; 8; 8; 8; 8; 8; 8; 8; 6; 6;
   7; 7; 6; 6; 7; 7; 8; 8; 8; 8; 8; 8; 8; 8; 3; 3; 4; 4; 3; 3; 4; 4; 7; 7; 7; 7; 7; 7; 7; 7; 3; 3; 4; 4; 3; 3; 4; 4;
   7; 7; 7; 7; 7; 7; 7; 7; 7; 7; 7; 7; 7; 7; 7; 7; 8; 8; 8; 8; 8; 8; 8; 8; 7; 7; 7; 7; 7; 7; 7; 7; 8; 8; 8; 8; 8; 8;
   8; 8; 3; 3; 4; 4; 3; 3; 4; 4; 7; 7; 7; 7; 7; 7; 7; 7; 3; 3; 4; 4; 3; 3; 4; 4; 7; 7; 7; 7; 7; 7; 7; 7; 7; 7; 7; 7;
   7; 7; 7; 7; 8; 8; 8; 8; 8; 8; 8; 8; 7; 7; 7; 7; 7; 7; 7; 7; 8; 8; 8; 8; 8; 8; 8; 8; 1; 2; 3; 3; 2; 2; 3; 3; 6; 6;
   7; 7; 6; 6; 7; 7; 1; 2; 3; 3; 2; 2; 3; 3; 6; 6; 7; 7; 6; 6; 7; 7; 6; 6; 7; 7; 6; 6; 7; 7; 8; 8; 8; 8; 8; 8; 8; 8;
   6; 6; 7; 7; 6; 6; 7; 7; 8; 8; 8; 8; 8; 8; 8; 8; 2; 2; 3; 3; 2; 2; 3; 3; 6; 6; 7; 7; 6; 6; 7; 7; 2; 2; 3; 3; 2; 2;
   3; 3; 6; 6; 7; 7; 6; 6; 7; 7; 6; 6; 7; 7; 6; 6; 7; 7; 8; 8; 8; 8; 8; 8; 8; 8; 6; 6; 7; 7; 6; 6; 7; 7; 8; 8; 8; 8;
   8; 8; 8; 8; 3; 3; 4; 4; 3; 3; 4; 4; 7; 7; 7; 7; 7; 7; 7; 7; 3; 3; 4; 4; 3; 3; 4; 4; 7; 7; 7; 7; 7; 7; 7; 7; 7; 7;
   7; 7; 7; 7; 7; 7; 8; 8; 8; 8; 8; 8; 8; 8; 7; 7; 7; 7; 7; 7; 7; 7; 8; 8; 8; 8; 8; 8; 8; 8; 3; 3; 4; 4; 3; 3; 4; 4;
   7; 7; 7; 7; 7; 7; 7; 7; 3; 3; 4; 4; 3; 3; 4; 4; 7; 7; 7; 7; 7; 7; 7; 7; 7; 7; 7; 7; 7; 7; 7; 7; 8; 8; 8; 8; 8; 8;
   8; 8; 7; 7; 7; 7; 7; 7; 7; 7; 8; 8; 8; 8; 8; 8; 8; 8].
Definition lut_zc_3 : list Z :=
  [
   0; 3; 1; 4; 3; 6; 4; 7; 1; 4; 2; 5; 4; 7; 5; 7; 0; 3; 1; 4; 3; 6; 4; 7; 1; 4; 2; 5; 4; 7; 5; 7; 1; 4; 2; 5; 4; 7;
   5; 7; 2; 5; 2; 5; 5; 7; 5; 7; 1; 4; 2; 5; 4; 7; 5; 7; 2; 5; 2; 5; 5; 7; 5; 7; 3; 6; 4; 7; 6; 8; 7; 8; 4; 7; 5; 7;
   7; 8; 7; 8; 3; 6; 4; 7; 6; 8; 7; 8; 4; 7; 5; 7; 7; 8; 7; 8; 4; 7; 5; 7; 7; 8; 7; 8; 5; 7; 5; 7; 7; 8; 7; 8; 4; 7;
   5; 7; 7; 8; 7; 8; 5; 7; 5; 7; 7; 8; 7; 8; 1; 4; 2; 5; 4; 7; 5; 7; 2; 5; 2; 5; 5; 7; 5; 7; 1; 4; 2; 5; 4; 7; 5; 7;
   2; 5; 2; 5; 5; 7; 5; 7; 2; 5; 2; 5; 5; 7; 5; 7; 2; 5; 2; 5; 5; 7; 5; 7; 2; 5; 2; 5; 5; 7; 5; 7; 2; 5; 2; 5; 5; 7;
   5; 7; 4; 7; 5; 7; 7; 8; 7; 8; 5; 7; 5; 7; 7; 8; 7; 8; 4; 7; 5; 7; 7; 8; 7; 8; 5; 7; 5; 7; 7; 8; 7; 8; 5; 7; 5; 7;
   7; 8; 7; 8; 5; 7; 5; 7; 7; 8; 7; 8; 5; 7; 5; 7; 7; 8; 7; 8; 5; 7; 5; 7; 7; 8; 7; 8; 3; 6; 4; 7; 6; 8; 7; 8; 4; 7;
   5; 7; 7; 8; 7; 8; 3; 6; 4; 7; 6; 8; 7; 8; 4; 7; 5; 7; 7; 8; 7; 8; 4; 7; 5; 7; 7; 8; 7; 8; 5; 7; 5; 7; 7; 8; 7; 8;
   4; 7; 5; 7; 7; 8; 7; 8; 5; 7; 5; 7; 7; 8; 7; 8; 6; 8; 7; 8; 8; 8; 8; 8; 7; 8; 7; 8; 8; 8; 8; 8; 6; 8; 7; 8; 8; 8;
   8; 8; 7; 8; 7; 8; 8; 8; 8; 8; 7; 8; 7; 8; 8; 8; 8; 8; 7; 8; 7; 8; 8; 8; 8; 8; 7; 8; 7; 8; 8; 8; 8; 8; 7; 8; 7; 8;
   8; 8; 8; 8; 4; 7; 5; 7; 7; 8; 7; 8; 5; 7; 5; 7; 7; 8; 7; 8; 4; 7; 5; 7; 7; 8; 7; 8; 5; 7; 5; 7; 7; 8; 7; 8; 5; 7;
   5; 7; 7; 8; 7; 8; 5; 7; 5; 7; 7; 8; 7; 8; 5; 7; 5; 7; 7; 8; 7; 8; 5; 7; 5; 7; 7; 8; 7; 8; 7; 8; 7; 8; 8; 8; 8; 8;
   7; 8; 7; 8; 8; 8; 8; 8; 7; 8; 7; 8; 8; 8; 8; 8; 7; 8; 7; 8; 8; 8; 8; 8; 7; 8; 7; 8; 8; 8; 8; 8; 7; 8; 7; 8; 8; 8;
   8; 8; 7; 8; 7; 8; 8; 8; 8; 8; 7; 8; 7; 8; 8; 8; 8; 8].
Definition lut_ctxno_zc (orient : Z) : list Z :=
  if orient =? 0 then lut_zc_0 else if orient =? 1 then lut_zc_1 else if orient =? 2 then lut_zc_2 else lut_zc_3.

(** t1_luts.rs:85-99. *)
Definition lut_ctxno_sc : list Z :=
  [
   9; 9; 10; 10; 9; 9; 10; 10; 12; 12; 13; 11; 12; 12; 13; 11; 9; 9; 10; 10; 9; 9; 10; 10; 12; 12; 11; 13; 12; 12;
   11; 13; 12; 12; 13; 13; 12; 12; 11; 11; 12; 9; 13; 10; 9; 12; 10; 11; 12; 12; 11; 11; 12; 12; 13; 13; 12; 9; 11;
   10; 9; 12; 10; 13; 9; 9; 10; 10; 9; 9; 10; 10; 12; 12; 13; 11; 12; 12; 13; 11; 9; 9; 10; 10; 9; 9; 10; 10; 12; 12;
   11; 13; 12; 12; 11; 13; 12; 12; 13; 13; 12; 12; 11; 11; 12; 9; 13; 10; 9; 12; 10; 11; 12; 12; 11; 11; 12; 12; 13;
   13; 12; 9; 11; 10; 9; 12; 10; 13; 10; 10; 10; 10; 10; 10; 10; 10; 13; 11; 13; 11; 13; 11; 13; 11; 10; 10; 9; 9;
   10; 10; 9; 9; 13; 11; 12; 12; 13; 11; 12; 12; 13; 13; 13; 13; 11; 11; 11; 11; 13; 10; 13; 10; 10; 11; 10; 11; 13;
   13; 12; 12; 11; 11; 12; 12; 13; 10; 12; 9; 10; 11; 9; 12; 10; 10; 9; 9; 10; 10; 9; 9; 11; 13; 12; 12; 11; 13; 12;
   12; 10; 10; 10; 10; 10; 10; 10; 10; 11; 13; 11; 13; 11; 13; 11; 13; 11; 11; 12; 12; 13; 13; 12; 12; 11; 10; 12; 9;
   10; 13; 9; 12; 11; 11; 11; 11; 13; 13; 13; 13; 11; 10; 11; 10; 10; 13; 10; 13].

(** t1_luts.rs:101-109. *)
Definition lut_spb : list Z :=
  [
   0; 0; 0; 0; 0; 0; 0; 0; 0; 1; 0; 1; 0; 1; 0; 1; 0; 0; 1; 1; 0; 0; 1; 1; 0; 1; 0; 1; 0; 1; 0; 1; 0; 0; 0; 0; 1; 1;
   1; 1; 0; 0; 0; 0; 0; 1; 0; 1; 0; 0; 0; 0; 1; 1; 1; 1; 0; 0; 0; 1; 0; 1; 1; 1; 0; 0; 0; 0; 0; 0; 0; 0; 0; 1; 0; 1;
   0; 1; 0; 1; 0; 0; 1; 1; 0; 0; 1; 1; 0; 1; 0; 1; 0; 1; 0; 1; 0; 0; 0; 0; 1; 1; 1; 1; 0; 0; 0; 0; 0; 1; 0; 1; 0; 0;
   0; 0; 1; 1; 1; 1; 0; 0; 0; 1; 0; 1; 1; 1; 0; 0; 0; 0; 0; 0; 0; 0; 0; 1; 0; 1; 0; 1; 0; 1; 0; 0; 0; 0; 0; 0; 0; 0;
   0; 1; 0; 1; 0; 1; 0; 1; 0; 0; 0; 0; 1; 1; 1; 1; 0; 0; 0; 0; 0; 1; 0; 1; 0; 0; 0; 0; 1; 1; 1; 1; 0; 0; 0; 0; 0; 1;
   0; 1; 1; 1; 0; 0; 1; 1; 0; 0; 0; 1; 0; 1; 0; 1; 0; 1; 1; 1; 1; 1; 1; 1; 1; 1; 0; 1; 0; 1; 0; 1; 0; 1; 0; 0; 0; 0;
   1; 1; 1; 1; 0; 1; 0; 0; 1; 1; 0; 1; 0; 0; 0; 0; 1; 1; 1; 1; 0; 1; 0; 1; 1; 1; 1; 1].
