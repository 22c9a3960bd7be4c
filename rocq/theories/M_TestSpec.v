(** Test specifications (gerabaldi/models/test_specs.py). *)
From Verif Require Export M_Base M_Time.
Open Scope Z_scope.

Section TestSpecs.
Context {V : Type}.   (* numeric type of condition values *)

(** MeasSpec, test_specs.py lines 16-43.  Sample counts are natural numbers
    (negative counts are not modelled). *)
Record meas_spec := MeasSpec {
  ms_counts : dict nat;     (* self.measurements *)
  ms_conds : dict V;
  ms_name : string }.

(** StrsSpec, test_specs.py lines 46-83; the duration in microseconds. *)
Record strs_spec := StrsSpec {
  ss_conds : dict V;
  ss_dur : Z;
  ss_name : string }.

(** Elements of a step list.  The code tests [type(step) is StrsSpec] and
    [type(step) is MeasSpec], so instances of subclasses and foreign objects are
    neither: [SOther], with the value of their [duration] attribute if any. *)
Inductive step :=
| SMeas (m : meas_spec)
| SStrs (s : strs_spec)
| SOther (duration : option Z).

Definition is_meas (s : step) : bool := match s with SMeas _ => true | _ => false end.

(** Argument [steps] of append_steps: a single step or a list. *)
Inductive to_add := One (s : step) | Many (l : list step).

(** lines 159-162 and 185-188: one pass of extend/append *)
Definition add_once (old : list step) (a : to_add) : list step :=
  match a with Many l => old ++ l | One s => old ++ [s] end.

(** lines 190-195: time added by one pass; [steps.duration] on an object without
    that attribute raises AttributeError *)
Definition add_time (t : Z) (a : to_add) : res Z :=
  match a with
  | Many l => Ok (fold_left (fun t s => match s with SStrs x => t + ss_dur x | _ => t end) l t)
  | One (SStrs x) => Ok (t + ss_dur x)
  | One (SOther (Some d)) => Ok (t + d)
  | One (SOther None) => Err AttributeError
  | One (SMeas _) => Err AttributeError
  end.

(** lines 183-195; [None] = fuel exhausted, the loop is still running *)
Fixpoint append_loop (fuel : nat) (steps : list step) (t : Z) (a : to_add) (dur : Z)
  : option (list step * res Z) :=
  if t <? dur then
    match fuel with
    | O => None
    | S fuel' =>
        let steps' := add_once steps a in
        match add_time t a with
        | Err e => Some (steps', Err e)
        | Ok t' => append_loop fuel' steps' t' a dur
        end
    end
  else Some (steps, Ok t).

(** line 177 *)
Definition only_meas (a : to_add) : bool :=
  match a with
  | One s => is_meas s
  | Many l => forallb is_meas l
  end.

(** lines 165-170 *)
Definition loop_duration (d : tval) (units : option string) : res Z :=
  match d with
  | TD us => Ok us
  | TN q => rbind (convert_time (TN q) units)
                  (fun t => match t with TD us => Ok us | TN _ => Err Unmodelled end)
  end.

(** TestSpec.append_steps, lines 142-202: the step list afterwards and the
    outcome.  The quotient test [(t / duration).is_integer()] is exact here; see
    L_FloatTime for the floating point quotient. *)
Definition append_steps (fuel : nat) (steps : list step) (a : to_add)
    (loop : option tval) (units : option string) : option (list step * res unit) :=
  match loop with
  | None => Some (add_once steps a, Ok tt)
  | Some d =>
      match loop_duration d units with
      | Err e => Some (steps, Err e)
      | Ok dur =>
          if dur =? 0 then Some (steps, Err UserConfigError)
          else if only_meas a then Some (steps, Err UserConfigError)
          else match append_loop fuel steps 0 a dur with
               | None => None
               | Some (steps', Err e) => Some (steps', Err e)
               | Some (steps', Ok t) =>
                   if t mod dur =? 0 then Some (steps', Ok tt)
                   else Some (steps', Err UserWarningE)
               end
      end
  end.

(** TestSpec.calc_samples_needed, lines 204-224 *)
Definition need_prm (acc : dict nat) (kv : string * nat) : dict nat :=
  let prm := fst kv in
  let n := snd kv in
  match dget acc prm with
  | None => dset acc prm n
  | Some cur => if Nat.ltb cur n then dset acc prm n else acc
  end.

Definition need_step (acc : dict nat) (s : step) : dict nat :=
  match s with
  | SMeas m => fold_left need_prm (ms_counts m) acc
  | _ => acc
  end.

Definition calc_samples_needed (steps : list step) : dict nat :=
  fold_left need_step steps [].

(** The iterator protocol, lines 226-238: the cursor [_curr_step] is an attribute
    of the TestSpec object itself ([None] = attribute absent). *)
Record iter_state := IterState { it_steps : list step; it_cur : option nat }.

Definition ts_iter (s : iter_state) : iter_state :=
  IterState (it_steps s) (Some 0%nat).

Definition ts_next (s : iter_state) : res step * iter_state :=
  match it_cur s with
  | None => (Err AttributeError, s)
  | Some c =>
      match nth_error (it_steps s) c with
      | Some x => (Ok x, IterState (it_steps s) (Some (S c)))
      | None => (Err StopIteration, IterState (it_steps s) None)
      end
  end.

Fixpoint ts_nexts (n : nat) (s : iter_state) : list (res step) * iter_state :=
  match n with
  | O => ([], s)
  | S n' => let '(r, s') := ts_next s in
            let '(rs, s'') := ts_nexts n' s' in (r :: rs, s'')
  end.

(** Histories of calls on one TestSpec. *)
Inductive iter_op := OIter | ONext | OAppend (l : list step).
Definition iter_do (s : iter_state) (o : iter_op) : iter_state :=
  match o with
  | OIter => ts_iter s
  | ONext => snd (ts_next s)
  | OAppend l => IterState (it_steps s ++ l) (it_cur s)
  end.

(** A [for x in test] statement: iter, then next until an exception. *)
Fixpoint for_loop_from (fuel : nat) (s : iter_state) : option (list step * exn * iter_state) :=
  match fuel with
  | O => None
  | S f => match ts_next s with
           | (Ok x, s') => match for_loop_from f s' with
                           | Some (xs, e, s'') => Some (x :: xs, e, s'')
                           | None => None
                           end
           | (Err e, s') => Some ([], e, s')
           end
  end.

Definition for_loop (fuel : nat) (s : iter_state) := for_loop_from fuel (ts_iter s).

(** Object identity of step lists, lines 134-136: TestSpec keeps a reference to
    the list it is given, or makes a new one. *)
Record heap := Heap { h_lists : list (list step); h_specs : list nat (* spec -> list object *) }.

Inductive heap_op :=
| NewList (l : list step)              (* the user builds a list object *)
| NewSpec (ref : option nat)           (* TestSpec() or TestSpec(that_list) *)
| AppendTo (spec : nat) (a : to_add) (loop : option tval) (units : option string).

Fixpoint set_nth {A} (l : list A) (i : nat) (x : A) : list A :=
  match l, i with
  | [], _ => []
  | _ :: r, O => x :: r
  | y :: r, S i' => y :: set_nth r i' x
  end.

(** [None]: the operation names an object that does not exist, or does not return. *)
Definition heap_do (fuel : nat) (h : heap) (o : heap_op) : option heap :=
  match o with
  | NewList l => Some (Heap (h_lists h ++ [l]) (h_specs h))
  | NewSpec None => Some (Heap (h_lists h ++ [[]]) (h_specs h ++ [length (h_lists h)]))
  | NewSpec (Some r) =>
      if Nat.ltb r (length (h_lists h)) then Some (Heap (h_lists h) (h_specs h ++ [r])) else None
  | AppendTo i a loop units =>
      match nth_error (h_specs h) i with
      | None => None
      | Some r =>
          match nth_error (h_lists h) r with
          | None => None
          | Some cur =>
              match append_steps fuel cur a loop units with
              | None => None
              | Some (l', _) => Some (Heap (set_nth (h_lists h) r l') (h_specs h))
              end
          end
      end
  end.

Fixpoint heap_run (fuel : nat) (h : heap) (os : list heap_op) : option heap :=
  match os with
  | [] => Some h
  | o :: r => match heap_do fuel h o with Some h' => heap_run fuel h' r | None => None end
  end.

(** The steps a TestSpec shows. *)
Definition view (h : heap) (i : nat) : option (list step) :=
  match nth_error (h_specs h) i with
  | Some r => nth_error (h_lists h) r
  | None => None
  end.

End TestSpecs.

Arguments meas_spec : clear implicits.
Arguments strs_spec : clear implicits.
Arguments step : clear implicits.
Arguments to_add : clear implicits.
Arguments iter_state : clear implicits.
Arguments iter_op : clear implicits.
Arguments heap : clear implicits.
Arguments heap_op : clear implicits.
