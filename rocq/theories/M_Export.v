(** Exporting and loading reports (gerabaldi/models/reports.py lines 42-89 and
    170-233), with exact rational numbers.

    The tables are what the user sees: lists of rows.  pandas' JSON writer and
    reader are modelled as far as the numbers go (see [json_num]): strings, labels
    and integers are written and read unchanged, the order of rows is kept.  Not
    modelled: files, NaN entries (written as null), column dtypes, the few
    units in the last place lost by pandas' default number parser, the conversion of
    columns whose name looks like a date (an '_at' or '_time' suffix), timedelta
    overflow. *)
From Coq Require Import QArith Qround Qabs Ascii.
From Verif Require Export M_Base M_Num M_Time M_TestSpec M_Report.
Open Scope Z_scope.

(** A SimReport as far as exporting is concerned.  A table is [None] while it is the
    empty DataFrame of lines 70-71, which has no columns. *)
Record xreport := XReport {
  x_name : string; x_desc : string;
  x_unit : option string;                      (* self.time_unit *)
  x_meas : option (list (row Q));
  x_sum : option (list (dict (cell Q))) }.

(** The report of a simulation, lines 58-71.  (A table all of whose parts had no
    rows does have columns; it is not distinguished here.) *)
Definition xreport_of (name desc : string) (r : report Q) : xreport :=
  XReport name desc None
    (match rp_meas r with [] => None | l => Some l end) (match rp_sum r with [] => None | l => Some l end).

(** A number as written by pandas.DataFrame.to_json (double_precision=10), in
    pandas' C function Buffer_AppendDoubleUnchecked: very large and very small
    numbers with ten significant digits, all others with ten decimals. *)
Definition e10 : Z := 10 ^ 10.
Definition fixed10 (a : Q) : Q :=
  let whole := Qfloor a in
  let tmp := ((a - inject_Z whole) * inject_Z e10)%Q in
  let frac := Qfloor tmp in
  let diff := (tmp - inject_Z frac)%Q in
  let frac' := if q_ltb (1 # 2) diff then frac + 1
               else if q_eqb diff (1 # 2) && ((frac =? 0) || Z.odd frac) then frac + 1
               else frac in
  if e10 <=? frac' then inject_Z (whole + 1)
  else (inject_Z whole + inject_Z frac' / inject_Z e10)%Q.
Definition sig10 (x : Q) : Q :=
  match q_flog10 x with
  | None => 0%Q
  | Some e => (inject_Z (round_half_even (x * q_pow10 (9 - e))) * q_pow10 (e - 9))%Q
  end.
Definition thres_max : Q := inject_Z (10 ^ 16 - 1).
Definition thres_min : Q := 1 # (10 ^ 15).
Definition json_num (x : Q) : Q :=
  let a := Qabs x in
  if q_ltb thres_max a || (negb (q_eqb a 0) && q_ltb a thres_min) then Qred (sig10 x)
  else if q_ltb x 0 then Qred (- fixed10 a) else Qred (fixed10 a).

(** A time cell in JSON: a number, or a timedelta, which is written as whole
    milliseconds (date_format='epoch', date_unit='ms'). *)
Definition json_time (t : tval) : Q :=
  match t with
  | TN q => json_num q
  | TD us => inject_Z (Z.quot us 1000)
  end.

Fixpoint map_resM {A B} (f : A -> res B) (l : list A) : res (list B) :=
  match l with
  | [] => Ok []
  | x :: r => rbind (f x) (fun y => rbind (map_resM f r) (fun ys => Ok (y :: ys)))
  end.

(** [_convert_time] applied to a row of measurements and to a cell of the summary.
    A number is what a condition named like a time column puts there. *)
Definition conv_row (units : string) (r : row Q) : res (row Q) :=
  rbind (convert_time (r_time r) (Some units)) (fun t =>
  Ok (Row (r_param r) (r_step r) (r_dev r) (r_chp r) (r_lot r) t (r_val r))).
Definition conv_cell (units : string) (c : cell Q) : res (cell Q) :=
  match c with
  | CTime t => rbind (convert_time t (Some units)) (fun t' => Ok (CTime t'))
  | CNum q => rbind (convert_time (TN q) (Some units)) (fun t' => Ok (CTime t'))
  | CNat n => rbind (convert_time (TN (inject_Z (Z.of_nat n))) (Some units)) (fun t' => Ok (CTime t'))
  | CStr _ => rbind (convert_time (TN 0) (Some units)) (fun _ => Err TypeError)
  end.
Definition conv_col (units k : string) (d : dict (cell Q)) : res (dict (cell Q)) :=
  match dget d k with
  | Some c => rbind (conv_cell units c) (fun c' => Ok (dset d k c'))
  | None => Err Unmodelled   (* NaN or no such column; not in reports of simulations *)
  end.

Definition json_row (r : row Q) : row Q :=
  Row (r_param r) (r_step r) (r_dev r) (r_chp r) (r_lot r) (TN (json_time (r_time r))) (json_num (r_val r)).
Definition json_cell (c : cell Q) : cell Q :=
  match c with CTime t => CNum (json_time t) | CNum q => CNum (json_num q) | _ => c end.
Definition json_sum (d : dict (cell Q)) : dict (cell Q) := map (fun kv => (fst kv, json_cell (snd kv))) d.

(** The exported dictionary. *)
Record xjson := XJson {
  j_name : string; j_desc : string; j_units : string;
  j_meas : list (row Q); j_sum : list (dict (cell Q)) }.

(** export_to_json, lines 170-222 (returning the dictionary) *)
Definition export_units (x : xreport) (time_unit : option string) : res string :=
  match time_unit with
  | None => Ok (match x_unit x with None => "hours"%string | Some u => u end)
  | Some s => match unit_map (Some s) with
              | Some u => Ok (unit_name u)
              | None => Err UserConfigError
              end
  end.
Definition export_to_json (x : xreport) (time_unit : option string) : res xjson :=
  rbind (export_units x time_unit) (fun units =>
  match x_meas x with
  | None => Err KeyError
  | Some rows =>
      rbind (map_resM (conv_row units) rows) (fun rows' =>
      match x_sum x with
      | None => Err KeyError
      | Some sums =>
          rbind (map_resM (conv_col units "duration") sums) (fun s1 =>
          rbind (map_resM (conv_col units "start time") s1) (fun s2 =>
          rbind (map_resM (conv_col units "end time") s2) (fun s3 =>
          Ok (XJson (x_name x) (x_desc x) units (map json_row rows') (map json_sum s3)))))
      end)
  end).

(** str.lower (ASCII) *)
Definition lower_ascii (c : ascii) : ascii :=
  let n := nat_of_ascii c in
  if (Nat.leb 65 n && Nat.leb n 90)%bool then ascii_of_nat (n + 32) else c.
Fixpoint lower (s : string) : string :=
  match s with
  | EmptyString => EmptyString
  | String c r => String (lower_ascii c) (lower r)
  end.

(** __init__ with a file, lines 73-89 *)
Definition load (j : xjson) : res xreport :=
  let units := lower (j_units j) in
  rbind (map_resM (conv_row units) (j_meas j)) (fun rows =>
  rbind (map_resM (conv_col units "start time") (j_sum j)) (fun s1 =>
  rbind (map_resM (conv_col units "end time") s1) (fun s2 =>
  rbind (map_resM (conv_col units "duration") s2) (fun s3 =>
  Ok (XReport (j_name j) (j_desc j) (Some units) (Some rows) (Some s3)))))).

(** convert_report_time, lines 224-233: the report afterwards, also when it raises *)
Definition convert_report_time (x : xreport) (time_unit : option string) : res unit * xreport :=
  let units := match time_unit with None => "hours"%string | Some u => u end in
  let x1 := XReport (x_name x) (x_desc x) (Some units) (x_meas x) (x_sum x) in
  match x_meas x with
  | None => (Err KeyError, x1)
  | Some rows =>
      match map_resM (conv_row units) rows with
      | Err e => (Err e, x1)
      | Ok rows' => (Ok tt, XReport (x_name x) (x_desc x) (Some units) (Some rows') (x_sum x))
      end
  end.
