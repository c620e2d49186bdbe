(** * PyNum: Python numbers (int, float) and their comparison.

    [int] is [Z].  [float] is the standard library's [spec_float] (sign, mantissa,
    exponent; no primitive floats, no axioms), with binary64 rounding parameters
    53 and 1024. *)

From Coq Require Import NArith ZArith List Bool Lia QArith.
From Coq Require Import Floats.SpecFloat.
From Verif Require Import PyBase.
Import ListNotations.
Open Scope Z_scope.

Definition pyfloat := spec_float.

(** [float("ddd.ddd")]: the binary64 number nearest to m / 10^k, where m is the
    integer spelled by all digits and k the number of digits after the dot.
    [SFdiv] computes a correctly rounded quotient of two integers given as
    mantissas with exponent 0.  Overflow gives infinity, as in CPython. *)
Definition float_of_dec (neg : bool) (m : N) (k : N) : pyfloat :=
  match m with
  | N0 => S754_zero neg
  | Npos p => match N.pow 10 k with
              | Npos q => SFdiv 53 1024 (S754_finite neg p 0) (S754_finite false q 0)
              | N0 => S754_nan (* 10^k is never 0 *)
              end
  end.

(** Python numbers as operands of comparison operators. *)
Inductive num : Type := NInt (z : Z) | NFloat (f : pyfloat).

(** Extended dyadic numbers: exact values of Python numbers. *)
Inductive ext : Type := EFin (m : Z) (e : Z) | EInf (neg : bool) | ENaN.

Definition ext_of (n : num) : ext :=
  match n with
  | NInt z => EFin z 0
  | NFloat (S754_zero _) => EFin 0 0
  | NFloat (S754_infinity s) => EInf s
  | NFloat S754_nan => ENaN
  | NFloat (S754_finite s m e) => EFin (if s then Z.neg m else Z.pos m) e
  end.

(** Comparison used by [==], [<], [>], [<=], [>=] on int/float operands.  CPython
    compares int with float exactly (Objects/floatobject.c, float_richcompare);
    NaN is unordered. *)
Definition num_cmp (a b : num) : option comparison :=
  match ext_of a, ext_of b with
  | ENaN, _ | _, ENaN => None
  | EInf s, EInf t => Some (if Bool.eqb s t then Eq else if s then Lt else Gt)
  | EInf s, EFin _ _ => Some (if s then Lt else Gt)
  | EFin _ _, EInf t => Some (if t then Gt else Lt)
  | EFin m1 e1, EFin m2 e2 =>
      let e := Z.min e1 e2 in
      Some (Z.compare (m1 * 2 ^ (e1 - e)) (m2 * 2 ^ (e2 - e)))
  end.

Definition num_eqb (a b : num) : bool :=
  match num_cmp a b with Some Eq => true | _ => false end.
Definition num_ltb (a b : num) : bool :=
  match num_cmp a b with Some Lt => true | _ => false end.
Definition num_gtb (a b : num) : bool :=
  match num_cmp a b with Some Gt => true | _ => false end.
Definition num_leb (a b : num) : bool :=
  match num_cmp a b with Some Lt | Some Eq => true | _ => false end.
Definition num_geb (a b : num) : bool :=
  match num_cmp a b with Some Gt | Some Eq => true | _ => false end.

(** [bool(x)] of a number: false for 0, 0.0 and -0.0 (NaN is truthy). *)
Definition num_truth (n : num) : bool :=
  match ext_of n with EFin 0 _ => false | _ => true end.

Definition float_eqb (a b : pyfloat) : bool := num_eqb (NFloat a) (NFloat b).
