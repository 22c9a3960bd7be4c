(** The IEEE-754 binary64 instance of the numeric carrier (Flocq), with signed
    zeros, infinities and NaN.  Comparisons, + - * /, sqrt and rint are the IEEE
    operations.  [nofQ] divides the rounded numerator by the rounded denominator;
    [nflog10] is the exact floor of the logarithm (the C library's log10 is not
    modelled); [nlog10] and [npow10] are not modelled (NaN) and no theorem is
    stated about them. *)
From Coq Require Import QArith Lia.
From Flocq Require Import Core BinarySingleNaN.
From Verif Require Export M_Base M_Num.
Open Scope Z_scope.

#[global] Instance b64_prec : FLX.Prec_gt_0 53 := eq_refl.
#[global] Instance b64_emax : Prec_lt_emax 53 1024 := eq_refl.
Definition b64t : Type := binary_float 53 1024.

Definition b_of_Z (z : Z) : b64t := binary_normalize 53 1024 b64_prec b64_emax mode_NE z 0 false.
Definition b_of_Q (q : Q) : b64t := Bdiv mode_NE (b_of_Z (Qnum q)) (b_of_Z (Z.pos (Qden q))).
Definition b_isinf (x : b64t) : bool := match x with B754_infinity _ => true | _ => false end.
Definition b_posinf (x : b64t) : bool := match x with B754_infinity false => true | _ => false end.
Definition b_to_Q (x : b64t) : option Q :=
  match x with
  | B754_zero _ => Some 0%Q
  | B754_finite s m e _ =>
      Some (Qmult (inject_Z (if s then Z.neg m else Z.pos m)) (Qpower 2 e))
  | _ => None
  end.
Definition b_flog10 (x : b64t) : option Z := match b_to_Q x with Some q => q_flog10 q | None => None end.
(** numpy: multiply, rint, divide for non-negative decimals; divide, rint, multiply
    otherwise *)
Definition b_round (x : b64t) (d : Z) : b64t :=
  if 0 <=? d then Bdiv mode_NE (Bnearbyint mode_NE (Bmult mode_NE x (b_of_Z (10 ^ d)))) (b_of_Z (10 ^ d))
  else Bmult mode_NE (Bnearbyint mode_NE (Bdiv mode_NE x (b_of_Z (10 ^ (- d))))) (b_of_Z (10 ^ (- d))).

#[global] Instance BOps : NumOps b64t := {
  nadd := Bplus mode_NE;
  nsub := Bminus mode_NE;
  nmul := Bmult mode_NE;
  ndiv := Bdiv mode_NE;
  nneg := Bopp;
  nabs := Babs;
  nltb := Bltb;
  nleb := Bleb;
  neqb := Beqb;
  nofQ := b_of_Q;
  nisinf := b_isinf;
  nposinf := b_posinf;
  nflog10 := b_flog10;
  nround := b_round;
  nsqrt := Bsqrt mode_NE;
  nlog10 _ := B754_nan;
  npow10 _ := B754_nan
}.
