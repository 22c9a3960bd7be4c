(** Steps and step lists as objects (gerabaldi/models/test_specs.py).  In M_TestSpec.v
    append_steps is given values; here lists hold references to step objects, and the
    argument of append_steps is a reference to a step or to a list, possibly to the
    list of the test itself. *)
From Verif Require Export M_Base M_Time M_TestSpec.
Open Scope Z_scope.

Section Objects.
Context {V : Type}.

(** Step objects, list objects (of references to steps) and tests (the list object in
    self.steps, lines 134-136). *)
Record store := Store { o_steps : list (step V); o_lists : list (list nat); o_tests : list nat }.
Definition store0 : store := Store [] [] [].

(** The steps behind references; all references of a reachable store are valid. *)
Definition look_up (steps : list (step V)) (refs : list nat) : list (step V) :=
  flat_map (fun r => match nth_error steps r with Some s => [s] | None => [] end) refs.

Inductive sarg := AStep (r : nat) | AList (r : nat).

Definition list_at (lists : list (list nat)) (r : nat) : list nat :=
  match nth_error lists r with Some l => l | None => [] end.
(** The argument as it is at this moment. *)
Definition now (steps : list (step V)) (lists : list (list nat)) (a : sarg) : option (to_add V) :=
  match a with
  | AStep r => match nth_error steps r with Some s => Some (One s) | None => None end
  | AList r => Some (Many (look_up steps (list_at lists r)))
  end.

(** lines 159-162 and 185-188: self.steps.extend(steps) - the elements that [steps] has
    when extend is called - or self.steps.append(steps) *)
Definition extend (lists : list (list nat)) (own : nat) (a : sarg) : list (list nat) :=
  set_nth lists own (list_at lists own ++ match a with AStep r => [r] | AList r => list_at lists r end).

(** lines 183-195: the time is counted after the list has been extended *)
Fixpoint extend_loop (fuel : nat) (steps : list (step V)) (lists : list (list nat)) (own : nat) (t : Z) (a : sarg) (dur : Z)
  : option (list (list nat) * res Z) :=
  if t <? dur then
    match fuel with
    | O => None
    | S fuel' =>
        let lists' := extend lists own a in
        match now steps lists' a with
        | None => None   (* no such object *)
        | Some x => match add_time t x with
                    | Err e => Some (lists', Err e)
                    | Ok t' => extend_loop fuel' steps lists' own t' a dur
                    end
        end
    end
  else Some (lists, Ok t).

(** append_steps, lines 142-202, of a test whose steps are the list object [own] *)
Definition append_obj (fuel : nat) (h : store) (own : nat) (a : sarg) (loop : option tval) (units : option string)
  : option (store * res unit) :=
  let put lists := Store (o_steps h) lists (o_tests h) in
  match now (o_steps h) (o_lists h) a with
  | None => None
  | Some x =>
      match loop with
      | None => Some (put (extend (o_lists h) own a), Ok tt)
      | Some d =>
          match loop_duration d units with
          | Err e => Some (h, Err e)
          | Ok dur =>
              if dur =? 0 then Some (h, Err UserConfigError)
              else if only_meas x then Some (h, Err UserConfigError)
              else match extend_loop fuel (o_steps h) (o_lists h) own 0 a dur with
                   | None => None
                   | Some (ls, Err e) => Some (put ls, Err e)
                   | Some (ls, Ok t) =>
                       if t mod dur =? 0 then Some (put ls, Ok tt) else Some (put ls, Err UserWarningE)
                   end
          end
      end
  end.

(** step.duration = us, after construction: nothing is checked.  For a MeasSpec this is
    an attribute that nobody reads. *)
Definition with_duration (us : Z) (s : step V) : step V :=
  match s with
  | SStrs x => SStrs (StrsSpec (ss_conds x) us (ss_name x))
  | SOther _ => SOther (Some us)
  | SMeas m => SMeas m
  end.

Inductive obj_op :=
| MakeStep (s : step V)
| MakeList (refs : list nat)
| MakeTest (ref : option nat)            (* TestSpec() or TestSpec(that_list) *)
| Append (test : nat) (a : sarg) (loop : option tval) (units : option string)
| SetDuration (r : nat) (us : Z).

(** [None]: the operation names an object that does not exist, or does not return. *)
Definition obj_do (fuel : nat) (h : store) (o : obj_op) : option (store * res unit) :=
  match o with
  | MakeStep s => Some (Store (o_steps h ++ [s]) (o_lists h) (o_tests h), Ok tt)
  | MakeList refs =>
      if forallb (fun r => Nat.ltb r (length (o_steps h))) refs
      then Some (Store (o_steps h) (o_lists h ++ [refs]) (o_tests h), Ok tt) else None
  | MakeTest None => Some (Store (o_steps h) (o_lists h ++ [[]]) (o_tests h ++ [length (o_lists h)]), Ok tt)
  | MakeTest (Some r) =>
      if Nat.ltb r (length (o_lists h)) then Some (Store (o_steps h) (o_lists h) (o_tests h ++ [r]), Ok tt) else None
  | Append i a loop units =>
      match nth_error (o_tests h) i, match a with AList r => nth_error (o_lists h) r | AStep _ => Some [] end with
      | Some own, Some _ => append_obj fuel h own a loop units
      | _, _ => None
      end
  | SetDuration r us =>
      match nth_error (o_steps h) r with
      | Some s => Some (Store (set_nth (o_steps h) r (with_duration us s)) (o_lists h) (o_tests h), Ok tt)
      | None => None
      end
  end.
Fixpoint obj_run (fuel : nat) (h : store) (os : list obj_op) : option store :=
  match os with
  | [] => Some h
  | o :: r => match obj_do fuel h o with Some (h', _) => obj_run fuel h' r | None => None end
  end.

(** The steps a test shows. *)
Definition shown (h : store) (i : nat) : option (list (step V)) :=
  match nth_error (o_tests h) i with
  | Some own => match nth_error (o_lists h) own with Some refs => Some (look_up (o_steps h) refs) | None => None end
  | None => None
  end.
End Objects.
Arguments store : clear implicits.
Arguments obj_op : clear implicits.
