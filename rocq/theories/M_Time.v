(** Time units and conversion (gerabaldi/helpers.py lines 97-125).
    A timedelta is an integer number of microseconds; numbers are exact
    rationals here (the floating point version is in M_FloatTime.v). *)
From Coq Require Export QArith.
From Verif Require Export M_Base.
Open Scope Z_scope.

Inductive tunit := UDays | UHours | USecs | UMs | UUs.

(** TIME_UNIT_MAP, helpers.py lines 97-109; [None] is Python's None key. *)
Definition unit_map (u : option string) : option tunit :=
  match u with
  | None => Some UHours
  | Some s =>
      if String.eqb s "days" then Some UDays
      else if String.eqb s "d" then Some UDays
      else if String.eqb s "hours" then Some UHours
      else if String.eqb s "h" then Some UHours
      else if String.eqb s "seconds" then Some USecs
      else if String.eqb s "s" then Some USecs
      else if String.eqb s "milliseconds" then Some UMs
      else if String.eqb s "ms" then Some UMs
      else if String.eqb s "microseconds" then Some UUs
      else if String.eqb s "us" then Some UUs
      else None
  end.

(** The values of TIME_UNIT_MAP are themselves keys: the full names. *)
Definition unit_name (u : tunit) : string :=
  match u with
  | UDays => "days" | UHours => "hours" | USecs => "seconds"
  | UMs => "milliseconds" | UUs => "microseconds"
  end.

(** TIME_SECOND_FACTORS, helpers.py line 110. *)
Definition sec_factor (u : tunit) : Q :=
  match u with
  | UDays => 86400 # 1 | UHours => 3600 # 1 | USecs => 1 # 1
  | UMs => 1 # 1000 | UUs => 1 # 1000000
  end.

(** Microseconds in one unit, as used by the [timedelta] constructor. *)
Definition us_per (u : tunit) : Z :=
  match u with
  | UDays => 86400000000 | UHours => 3600000000 | USecs => 1000000
  | UMs => 1000 | UUs => 1
  end.

(** Round half to even, as the timedelta constructor does with microseconds. *)
Definition round_half_even (q : Q) : Z :=
  let n := Qnum q in
  let d := Z.pos (Qden q) in
  let f := n / d in
  let r := n mod d in
  match Z.compare (2 * r) d with
  | Lt => f
  | Gt => f + 1
  | Eq => if Z.even f then f else f + 1
  end.

(** A Python time argument: a timedelta or a number. *)
Inductive tval := TD (us : Z) | TN (q : Q).

(** Construction of a timedelta from keyword [unit = q]. *)
Definition num_to_td (u : tunit) (q : Q) : Z := round_half_even (q * inject_Z (us_per u)).
(** [time.total_seconds() / TIME_SECOND_FACTORS[unit]] *)
Definition td_to_num (u : tunit) (us : Z) : Q := (us # 1000000) / sec_factor u.

(** _convert_time, helpers.py lines 113-125: timedelta to number, number to timedelta. *)
Definition convert_time (t : tval) (units : option string) : res tval :=
  match unit_map units with
  | None => Err UserConfigError
  | Some u => match t with
              | TD us => Ok (TN (td_to_num u us))
              | TN q => Ok (TD (num_to_td u q))
              end
  end.

(** StrsSpec.__init__ (models/test_specs.py lines 60-83), duration handling only:
    the duration stored, or the exception. *)
Definition strs_duration (d : tval) (units : option string) : res Z :=
  rbind (match d with TD us => Ok (TD us) | TN q => convert_time (TN q) units end)
        (fun t => match t with
                  | TD us => if Z.eqb us 0 then Err UserConfigError else Ok us
                  | TN _ => Err Unmodelled (* unreachable: the conversion of a number is a timedelta *)
                  end).
