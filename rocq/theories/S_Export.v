(** Specification notions for exported reports. *)
From Coq Require Import QArith Qabs.
From Verif Require Import M_Base M_Num M_Time S_Time M_TestSpec S_TestSpec M_Report M_Export.
Open Scope Z_scope.

(** The unit in which a report is exported: the one asked for, else the one the
    report remembers, else hours ([None]). *)
Definition chosen (x : xreport) (time_unit : option string) : option string :=
  match time_unit with Some s => Some s | None => x_unit x end.

(** Times of a report as the simulator makes them: timedeltas, here below 317 years
    (10^16 microseconds); all three in every summary row. *)
Definition usual_time (t : tval) : Prop := exists us, t = TD us /\ Z.abs us < 10 ^ 16.
Definition time_cols : list string := ["start time"; "end time"; "duration"]%string.
Definition timed (x : xreport) (rows : list (row Q)) (sums : list (dict (cell Q))) : Prop :=
  x_meas x = Some rows /\ x_sum x = Some sums /\
  (forall r, In r rows -> usual_time (r_time r)) /\
  (forall d, In d sums -> dwf d /\ forall k, In k time_cols -> exists t, dget d k = Some (CTime t) /\ usual_time t) /\
  (forall d k t, In d sums -> dget d k = Some (CTime t) -> In k time_cols).

(** Two rows or summary lines that agree up to a relation on times and one on values. *)
Definition row_rel (T : tval -> tval -> Prop) (N : Q -> Q -> Prop) (r r' : row Q) : Prop :=
  r_param r' = r_param r /\ r_step r' = r_step r /\ r_dev r' = r_dev r /\ r_chp r' = r_chp r /\ r_lot r' = r_lot r /\
  T (r_time r) (r_time r') /\ N (r_val r) (r_val r').
Definition cell_rel (T : tval -> tval -> Prop) (N : Q -> Q -> Prop) (c c' : cell Q) : Prop :=
  match c, c' with
  | CTime t, CTime t' => T t t'
  | CNum q, CNum q' => N q q'
  | CStr s, CStr s' => s' = s
  | CNat n, CNat n' => n' = n
  | _, _ => False
  end.
Definition sum_rel (T : tval -> tval -> Prop) (N : Q -> Q -> Prop) (d d' : dict (cell Q)) : Prop :=
  dkeys d' = dkeys d /\ forall k c, dget d k = Some c -> exists c', dget d' k = Some c' /\ cell_rel T N c c'.

(** The number read back for a number: ten decimals in the usual range, else ten
    significant digits. *)
Definition ordinary (v : Q) : Prop := (v == 0 \/ 1 # (10 ^ 15) <= Qabs v)%Q /\ (Qabs v <= inject_Z (10 ^ 16 - 1))%Q.
Definition read_back (v v' : Q) : Prop :=
  (ordinary v -> (Qabs (v' - v) <= 1 # (2 * 10 ^ 10))%Q) /\
  (~ ordinary v -> (Qabs (v' - v) <= Qabs v * (1 # (2 * 10 ^ 9)))%Q).

Definition time_near (us : Z) (t t' : tval) : Prop :=
  match t, t' with TD a, TD b => Z.abs (b - a) <= us | _, _ => False end.

(** A test starting at time [z0] that stays within the usual times. *)
Definition short_test {V} (z0 : Z) (l : list (step V)) : Prop :=
  0 <= z0 /\ (forall s, In (SStrs s) l -> 0 <= ss_dur s) /\ z0 + stress_time l < 10 ^ 16.
