(** Reading to significant figures in binary64 arithmetic. *)
From Coq Require Import Reals.
From Flocq Require Import Core BinarySingleNaN.
From Verif Require Import M_Base M_Num M_NumB.
Open Scope R_scope.

(** The nearest binary64 number (ties to even; no overflow). *)
Definition nearest_double (x : R) : R := round radix2 (FLT_exp (-1074) 53) ZnearestE x.

(** A carrier with IEEE multiplication, division and rint, numpy's way of rounding to
    decimals, and a logarithm that may be wrong by a factor [1 + delta] in the
    argument: just below a power of ten it may give the next exponent, just above the
    previous one. *)
Record rounds_like_numpy (delta : R) (O : NumOps b64t) : Prop := {
  rn_eq : forall x y : b64t, neqb x y = Beqb x y;
  rn_zero : @n0 b64t O = (B754_zero false : b64t);
  rn_inf : forall x : b64t, nisinf x = b_isinf x;
  rn_round : forall (x : b64t) d, nround x d = b_round x d;
  rn_log : forall x : b64t, is_finite x = true -> B2R x <> 0 -> exists k, nflog10 x = Some k /\
    powerRZ 10 k * (1 - delta) <= Rabs (B2R x) < powerRZ 10 (k + 1) * (1 + delta) }.

(** [y] is the double nearest to a decimal number [n * 10^e] of [p] digits, which is
    as close to [x] as the multiplication allows. *)
Definition reads_as (p : Z) (x y : b64t) : Prop :=
  is_finite y = true /\ exists n e,
    (10 ^ (p - 1) <= Z.abs n <= 10 ^ p)%Z /\
    B2R y = nearest_double (IZR n * powerRZ 10 e) /\
    Rabs (IZR n * powerRZ 10 e - B2R x) <= (/ 2 + powerRZ 10 p * powerRZ 2 (-53) * (9 / 8)) * powerRZ 10 e /\
    0 < IZR n * B2R x.

(** The powers of ten in the rounding to [p] digits are exact. *)
Definition middling (p : Z) (x : b64t) : Prop := powerRZ 10 (p - 21) <= Rabs (B2R x) < powerRZ 10 (p + 20).
(** The power of ten exceeds the largest double. *)
Definition tiny (p : Z) (x : b64t) : Prop := B2R x <> 0 /\ Rabs (B2R x) < powerRZ 10 (p - 309) * (7 / 8).

Definition reading (p : Z) (x y : b64t) : Prop :=
  (is_finite x = true -> B2R x = 0 -> y = x) /\ (is_finite x = false -> y = x) /\
  (is_finite x = true -> middling p x -> reads_as p x y) /\
  (is_finite x = true -> tiny p x -> y = B754_nan).

(** Zero, infinite, or of a size for which the powers of ten are exact. *)
Definition plain_value (p : Z) (x : b64t) : Prop :=
  is_nan x = false /\ (is_finite x = true -> B2R x = 0 \/ middling p x).
