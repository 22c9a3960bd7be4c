(** Prebuilt test specifications (gerabaldi/cookbook/test_specs.py). *)
From Verif Require Export M_Base M_Num M_Time M_TestSpec.
Open Scope Z_scope.

(** What [htol] returns: the attributes of the TestSpec that matter. *)
Record test_spec (V : Type) := TestSpec { t_steps : list (step V); t_chps : Z; t_lots : Z }.
Arguments TestSpec {V} _ _ _. Arguments t_steps {V} _. Arguments t_chps {V} _. Arguments t_lots {V} _.

Section Cookbook.
Context {V : Type} `{NumOps V}.

(** line 13: CELSIUS_TO_KELVIN *)
Definition celsius_to_kelvin : V := nofQ (27315 # 100).

(** timedelta(hours=n) for an int *)
Definition hours (n : Z) : Z := n * 3600000000.

(** The two conditions of a step, lines 57-62 *)
Definition htol_conds (temp_c vdd : V) : dict V := [("temp"%string, nadd temp_c celsius_to_kelvin); ("vdd"%string, vdd)].

(** htol, lines 16-87; integer hours, as annotated.  [None]: still running after
    [fuel] rounds of the loop in append_steps. *)
Definition htol (fuel : nat) (to_meas : dict nat) (vdd_nom vdd_mult : V) (intrvl duration chps lots : Z) (temp : V)
  : option (res (test_spec V)) :=
  let strs_vdd := nmul vdd_nom vdd_mult in
  let meas_strs := MeasSpec to_meas (htol_conds temp strs_vdd) "Stress Temp Measurement" in
  let meas_room := MeasSpec to_meas (htol_conds (nofQ 25) vdd_nom) "Room Temp Measurement" in
  match strs_duration (TD (hours duration)) None with
  | Err e => Some (Err e)
  | Ok us =>
      let strs (d : Z) := StrsSpec (htol_conds temp strs_vdd) d "HTOL Stress" in
      let finish (steps : list (step V)) : option (res (test_spec V)) :=
        Some (Ok (TestSpec (add_once steps (One (SMeas meas_room))) chps lots)) in
      if duration <=? intrvl
      then finish (add_once [SMeas meas_room] (One (SStrs (strs us))))
      else if intrvl =? 0 then Some (Err ZeroDivisionError)
      else if duration mod intrvl =? 0
           then match append_steps fuel (add_once [SMeas meas_room] (One (SMeas meas_strs)))
                        (Many [SStrs (strs (hours intrvl)); SMeas meas_strs]) (Some (TN (inject_Z duration))) None with
                | None => None
                | Some (_, Err e) => Some (Err e)
                | Some (steps, Ok _) => finish steps
                end
           else Some (Err UserConfigError)
  end.
End Cookbook.
