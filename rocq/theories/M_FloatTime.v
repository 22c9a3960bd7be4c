(** Floating point version of time conversion and of the loop-append check.
    IEEE binary64 with round to nearest even, as a rounding operator on reals
    (Flocq); overflow cannot occur for timedeltas (magnitude below 2^67 us). *)
From Coq Require Export Reals.
From Flocq Require Export Core.
From Verif Require Export M_Base M_Time.
Open Scope R_scope.

Definition b64 (x : R) : R := round radix2 (FLT_exp (-1074) 53) ZnearestE x.

(** TIME_SECOND_FACTORS (helpers.py line 110) as doubles. *)
Definition sec_factor_f (u : tunit) : R :=
  match u with
  | UDays => 86400 | UHours => 3600 | USecs => 1
  | UMs => b64 (1 / 1000) | UUs => b64 (1 / 1000000)
  end.

(** [time.total_seconds() / factor] (helpers.py line 123): total_seconds is the
    correctly rounded quotient of the microseconds by 10**6. *)
Definition td_to_num_f (u : tunit) (us : Z) : R := b64 (b64 (IZR us / 1000000) / sec_factor_f u).

(** timedelta from a float number of units (CPython's accum and delta_new): the
    integer part is multiplied exactly, the fractional part in floating point,
    and the sum is rounded half to even. *)
Definition num_to_td_f (u : tunit) (x : R) : Z :=
  let i := Ztrunc x in
  ZnearestE (IZR (i * us_per u) + b64 (IZR (us_per u) * (x - IZR i))).

(** [(t / duration).is_integer()] (test_specs.py line 198): the quotient of two
    timedeltas is the correctly rounded quotient of their microseconds. *)
Definition quot_is_integer_f (t d : Z) : Prop := exists m : Z, b64 (IZR t / IZR d) = IZR m.
