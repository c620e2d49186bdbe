(** * FloatSpec: the double nearest to a fraction *)

From Coq Require Import ZArith.
From Coq Require Import Floats.SpecFloat.
From Verif Require Import PyBase PyNum.
Open Scope Z_scope.

(** All finite binary64 numbers are multiples of 2^-1074; [double u] says that u such units
    are one of them: 53 bits and an exponent between -1074 and 971. *)
Definition double (u : Z) : Prop := exists m e, Z.abs m < 2 ^ 53 /\ 0 <= e <= 2045 /\ u = m * 2 ^ e.
(** The finite float [f], not negative but for its sign, has [u] units; its last bit. *)
Definition in_units (neg : bool) (f : pyfloat) (u : Z) (even : bool) : Prop :=
  match f with
  | S754_zero s => s = neg /\ u = 0 /\ even = true
  | S754_finite s m e => s = neg /\ -1074 <= e <= 971 /\ Z.pos m < 2 ^ 53 /\ (e = -1074 \/ 2 ^ 52 <= Z.pos m) /\
                         u = Z.pos m * 2 ^ (e + 1074) /\ even = Z.even (Z.pos m)
  | _ => False
  end.
(** The distance of u units from p / q, times q. *)
Definition off (p q u : Z) : Z := Z.abs (p * 2 ^ 1074 - q * u).
(** [f] is p / q with a sign, rounded to the nearest double, to the one with the last bit 0 if
    two are equally near; from half a unit above the largest double on, infinity. *)
Definition rounds (neg : bool) (p q : Z) (f : pyfloat) : Prop :=
  let huge := q * ((2 ^ 54 - 1) * 2 ^ (970 + 1074)) <= p * 2 ^ 1074 in
  (huge /\ f = S754_infinity neg) \/
  (~ huge /\ exists u even, in_units neg f u even /\
     (forall v, double v -> off p q u <= off p q v) /\
     (forall v, double v -> v <> u -> off p q u = off p q v -> even = true)).
