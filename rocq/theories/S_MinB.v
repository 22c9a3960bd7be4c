(** What the search for a minimum may do in double precision (C89).  The
    vocabulary is that of IEEE 754 numbers and of the function searched: no
    definition of the minimiser is used. *)
From Coq Require Import Reals QArith.
From Flocq Require Import Core BinarySingleNaN.
From Verif Require Import M_Base M_Num M_NumB.
Open Scope R_scope.

Notation val := (@B2R 53 1024).
Notation fin64 := (@BinarySingleNaN.is_finite 53 1024).

(** Double precision with any base-10 logarithm and exponential: the C library's
    are not specified by IEEE 754. *)
Definition b_ops (log10 pow10 : b64t -> b64t) : NumOps b64t := {|
  nadd := Bplus mode_NE; nsub := Bminus mode_NE; nmul := Bmult mode_NE; ndiv := Bdiv mode_NE;
  nneg := Bopp; nabs := Babs; nltb := Bltb; nleb := Bleb; neqb := Beqb; nofQ := b_of_Q;
  nisinf := b_isinf; nposinf := b_posinf; nflog10 := b_flog10; nround := b_round; nsqrt := Bsqrt mode_NE;
  nlog10 := log10; npow10 := pow10 |}.

(** A number between two bounds; a number that is NaN or between them. *)
Definition between (lo hi : R) (x : b64t) : Prop := fin64 x = true /\ lo <= val x <= hi.
Definition nan_or_between (lo hi : R) (x : b64t) : Prop := x = B754_nan \/ between lo hi x.

(** Limits and tolerances that leave room for rounding: the absolute tolerance is
    at least a millionth of a millionth of the limits and at most their distance,
    and the relative one at most a thousandth. *)
Record sane (rel abs lo hi : b64t) : Prop := {
  sane_rel : between 0 (/ 1000) rel;
  sane_abs : between (/ 10 ^ 30) (10 ^ 30) abs;
  sane_lo : fin64 lo = true;
  sane_hi : fin64 hi = true;
  sane_order : val lo + val abs <= val hi;
  sane_span : Rabs (val lo) <= 1000000000000 * val abs /\ Rabs (val hi) <= 1000000000000 * val abs }.

(** With log_gold the search is over exponents, and the function receives their
    powers of ten. *)
Definition limit (log_gold : bool) (log10 : b64t -> b64t) (x : b64t) : b64t := if log_gold then log10 x else x.
Definition received (log_gold : bool) (pow10 : b64t -> b64t) (x : b64t) : b64t := if log_gold then pow10 x else x.

(** The function searched, made to fail at every point outside a set. *)
Definition guarded (P : b64t -> bool) (e : exn) (F : list b64t -> M (list b64t)) (pts : list b64t) : M (list b64t) :=
  if forallb P pts then F pts else raise e.

(** The function's values are numbers of moderate size, or not numbers at all. *)
Definition moderate (x : b64t) : Prop := fin64 x = true /\ Rabs (val x) <= bpow radix2 400.
Definition values (P : b64t -> Prop) (F : list b64t -> M (list b64t)) : Prop :=
  forall pts w w' fs, F pts w = (Ok fs, w') -> Forall P fs.

(** A base-10 logarithm that is right to a millionth at the two limits of the
    library's searches, and a base-10 exponential that is right to one part in a
    thousand for the exponents between -4 and 11 and gives NaN for NaN. *)
Definition good_log (log10 : b64t -> b64t) : Prop :=
  between (- 3 - / 1000000) (- 3 + / 1000000) (log10 (b_of_Q (1 # 1000))) /\
  between (10 - / 1000000) (10 + / 1000000) (log10 (b_of_Q 10000000000)).
Definition good_pow (pow10 : b64t -> b64t) : Prop :=
  pow10 B754_nan = B754_nan /\
  forall u, between (- 4) 11 u -> fin64 (pow10 u) = true /\
    Rabs (val (pow10 u) - Rpower 10 (val u)) <= Rpower 10 (val u) / 1000.
