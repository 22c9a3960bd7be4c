(** Simulation reports (gerabaldi/models/reports.py): construction from a test,
    formatting and accumulation of measurements.  JSON export is in M_Export.v. *)
From Verif Require Export M_Base M_Num M_Nd M_Time M_TestSpec.
Open Scope nat_scope.

(** One row of SimReport.measurements; labels are None for conditions. *)
Record row (V : Type) := Row {
  r_param : string; r_step : nat; r_dev : option nat; r_chp : option nat; r_lot : option nat;
  r_time : tval; r_val : V }.
Arguments Row {V} _ _ _ _ _ _ _.
Arguments r_param {V} _. Arguments r_step {V} _. Arguments r_dev {V} _. Arguments r_chp {V} _.
Arguments r_lot {V} _. Arguments r_time {V} _. Arguments r_val {V} _.

(** A cell of SimReport.test_summary; a row is a dictionary (columns missing in a
    row read as NaN in the table). *)
Inductive cell (V : Type) := CStr (s : string) | CNat (n : nat) | CTime (t : tval) | CNum (v : V).
Arguments CStr {V} _. Arguments CNat {V} _. Arguments CTime {V} _. Arguments CNum {V} _.

(** SimReport, lines 62-76 (the attributes used by the simulator) *)
Record report (V : Type) := Report {
  rp_chps : nat; rp_lots : nat; rp_counts : dict nat;
  rp_meas : list (row V); rp_sum : list (dict (cell V)) }.
Arguments Report {V} _ _ _ _ _.
Arguments rp_chps {V} _. Arguments rp_lots {V} _. Arguments rp_counts {V} _.
Arguments rp_meas {V} _. Arguments rp_sum {V} _.

Section Report.
Context {V : Type} `{NumOps V}.

(** __init__ with a test specification, lines 65-71 *)
Definition report_init (steps : list (step V)) (chps lots : nat) : report V :=
  Report chps lots (calc_samples_needed steps) [] [].

(** np.tile, np.repeat; np.linspace(0, n - 1, n, dtype=int) is [seq 0 n] *)
Definition np_tile (l : list nat) (n : nat) : list nat := concat (repeat l n).
Definition np_repeat (l : list nat) (n : nat) : list nat := flat_map (fun x => repeat x n) l.

(** lines 120-127: the three counts; rank 0 has no shape[0] *)
Definition meas_dims (s : list nat) : res (nat * nat * nat) :=
  match s with
  | [l; c; d] => Ok (l, c, d)
  | [c; d] => Ok (1, c, d)
  | n :: _ => Ok (1, 1, n)
  | [] => Err IndexError
  end.

Fixpoint zip_rows (prm : string) (stp : nat) (time : tval) (dev chp lot : list nat) (vals : list V) : list (row V) :=
  match dev, chp, lot, vals with
  | d :: dev', c :: chp', l :: lot', v :: vals' =>
      Row prm stp (Some d) (Some c) (Some l) time v :: zip_rows prm stp time dev' chp' lot' vals'
  | _, _, _, _ => []
  end.

(** format_measurements, lines 91-146.  The columns have equal lengths by
    construction; the value array is flattened in row-major order. *)
Definition format_measurements (vals : pyval V) (prm : string) (time : tval) (stp : nat) (is_param : bool)
  : res (list (row V)) :=
  rbind (match vals with PDict _ => Err IndexError | _ => to_nd vals end) (fun a =>
  rbind (meas_dims (nshape a)) (fun lcd =>
  let '(nl, nc, ndv) := lcd in
  rbind (nreshape [ndv * nc * nl] a) (fun b =>
  Ok (if is_param
      then zip_rows prm stp time
             (np_tile (seq 0 ndv) (nc * nl))
             (np_tile (np_repeat (seq 0 nc) ndv) nl)
             (np_repeat (seq 0 nl) (ndv * nc))
             (ndata b)
      else map (fun v => Row prm stp None None None time v) (ndata b))))).

(** add_measurements, add_summary_report, lines 148-168 *)
Definition add_measurements (r : report V) (m : list (row V)) : report V :=
  Report (rp_chps r) (rp_lots r) (rp_counts r) (rp_meas r ++ m) (rp_sum r).
Definition add_summary (r : report V) (s : dict (cell V)) : report V :=
  Report (rp_chps r) (rp_lots r) (rp_counts r) (rp_meas r) (rp_sum r ++ [s]).
End Report.
