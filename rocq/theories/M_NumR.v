(** The real-number instance of the numeric carrier: exact arithmetic.  Used for
    theorems about arithmetic; floating-point rounding is not part of it. *)
From Coq Require Import Reals QArith Qreals.
From Flocq Require Import Core.
From Verif Require Export M_Base M_Num.
Open Scope R_scope.

Definition r_pow10 (z : Z) : R := powerRZ 10 z.

(** floor(log10(|x|)); ValueError at 0, as math.log10 *)
Definition r_flog10 (x : R) : option Z :=
  if Req_bool x 0 then None else Some (Zfloor (ln (Rabs x) / ln 10)).

(** np.round(x, d): nearest multiple of 10^-d, ties to even *)
Definition r_round (x : R) (d : Z) : R := IZR (ZnearestE (x * r_pow10 d)) / r_pow10 d.

#[global] Instance ROps : NumOps R := {
  nadd := Rplus;
  nsub := Rminus;
  nmul := Rmult;
  ndiv := Rdiv;
  nneg := Ropp;
  nabs := Rabs;
  nltb := Rlt_bool;
  nleb := Rle_bool;
  neqb := Req_bool;
  nofQ := Q2R;
  nisinf _ := false;
  nposinf _ := false;
  nflog10 := r_flog10;
  nround := r_round;
  nsqrt := sqrt;
  nlog10 x := ln x / ln 10;
  npow10 x := Rpower 10 x
}.
