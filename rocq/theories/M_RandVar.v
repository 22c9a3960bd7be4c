(** Random variables (gerabaldi/models/random_vars.py). *)
From Verif Require Export M_Base M_Num M_Nd.
Open Scope Z_scope.

(** The four distribution classes with their attributes, lines 120-304. *)
Inductive dist (V : Type) :=
| DDeter (value : V)
| DNormal (mu sigma : V)
| DGamma (alpha beta : V)
| DUniform (start stop : V).
Arguments DDeter {V} _.  Arguments DNormal {V} _ _.
Arguments DGamma {V} _ _.  Arguments DUniform {V} _ _.

(** Parameters as handed to numpy.random.Generator methods. *)
Inductive npdist (V : Type) :=
| NNormal (loc scale : V)
| NGamma (shape scale : V)
| NUniform (low high : V).
Arguments NNormal {V} _ _.  Arguments NGamma {V} _ _.  Arguments NUniform {V} _ _.

(** Parameters as handed to a PyMC distribution. *)
Inductive pymcdist (V : Type) :=
| MNormal (mu sigma : V)
| MGamma (alpha beta : V)
| MUniform (lower upper : V).
Arguments MNormal {V} _ _.  Arguments MGamma {V} _ _.  Arguments MUniform {V} _ _.

(** Parameters as handed to a Pyro distribution. *)
Inductive pyrodist (V : Type) :=
| YNormal (loc scale : V)
| YGamma (concentration rate : V)
| YUniform (low high : V).
Arguments YNormal {V} _ _.  Arguments YGamma {V} _ _.  Arguments YUniform {V} _ _.

(** numpy's generator algorithm, an arbitrary function: one draw from a
    distribution in a generator state gives a value and the next state; a draw
    of size n is n single draws.  [rvalid] is numpy's check of the parameters
    (e.g. a negative scale), failing with ValueError. *)
Class Rng (V : Type) := {
  rdraw : npdist V -> nat -> V * nat;
  rvalid : npdist V -> bool
}.

(** A RandomVar object: which generator object it draws from, its distribution
    and its name.  Two references to one Python object have equal [rv_gen]. *)
Record rv (V : Type) := Rv { rv_gen : nat; rv_dist : dist V; rv_name : option string }.
Arguments Rv {V} _ _ _.  Arguments rv_gen {V} _.  Arguments rv_dist {V} _.  Arguments rv_name {V} _.

Definition wset (w : world) (g s : nat) : world := fun i => if Nat.eqb i g then s else w i.

Section RandVar.
Context {V : Type} `{NumOps V}.

(** _params_for_numpy: base class line 107 (Deterministic), Normal 196, Gamma 261,
    Uniform 300.  1 / beta on Python numbers raises ZeroDivisionError at 0. *)
Definition params_numpy (d : dist V) : res (npdist V) :=
  match d with
  | DDeter _ => Err NotImplementedErr
  | DNormal mu sigma => Ok (NNormal mu sigma)
  | DGamma alpha beta =>
      if neqb beta n0 then Err ZeroDivisionError else Ok (NGamma alpha (ndiv n1 beta))
  | DUniform start stop => Ok (NUniform start stop)
  end.

(** _params_for_pymc: lines 104, 193, 258, 297 *)
Definition params_pymc (d : dist V) : res (pymcdist V) :=
  match d with
  | DDeter _ => Err NotImplementedErr
  | DNormal mu sigma => Ok (MNormal mu sigma)
  | DGamma alpha beta => Ok (MGamma alpha beta)
  | DUniform start stop => Ok (MUniform start stop)
  end.

(** _params_for_pyro: lines 110, 199, 264, 303 *)
Definition params_pyro (d : dist V) : res (pyrodist V) :=
  match d with
  | DDeter _ => Err NotImplementedErr
  | DNormal mu sigma => Ok (YNormal mu sigma)
  | DGamma alpha beta => Ok (YGamma alpha beta)
  | DUniform start stop => Ok (YUniform start stop)
  end.

(** get_centre / set_centre, lines 113-117 (default) and 202-226 (Normal);
    [op] is the optional operation argument. *)
Definition get_centre (r : rv V) : res V :=
  match rv_dist r with DNormal mu _ => Ok mu | _ => Err NotImplementedErr end.
Definition set_centre (r : rv V) (value : V) (op : option (V -> V -> V)) : res (rv V) :=
  match rv_dist r with
  | DNormal mu sigma =>
      Ok (Rv (rv_gen r)
             (DNormal (match op with Some f => f value mu | None => value end) sigma)
             (rv_name r))
  | _ => Err NotImplementedErr
  end.

(** A distribution in the target framework: which library and the parameters
    handed to it, with the variable's name (get_cbi_form, lines 64-101; the
    NotImplementedError of line 86 or 96 covers Deterministic as well). *)
Inductive cbi_form := InPymc (name : option string) (d : pymcdist V)
                    | InPyro (name : option string) (d : pyrodist V).
Definition get_cbi_form (r : rv V) (target : string) : res cbi_form :=
  if String.eqb target "pymc" then
    rbind (params_pymc (rv_dist r)) (fun d => Ok (InPymc (rv_name r) d))
  else if String.eqb target "pyro" then
    rbind (params_pyro (rv_dist r)) (fun d => Ok (InPyro (rv_name r) d))
  else Err NotImplementedErr.

Context `{Rng V}.

(** [n] successive draws. *)
Fixpoint draws (d : npdist V) (n : nat) (s : nat) : list V * nat :=
  match n with
  | O => ([], s)
  | S k => let '(x, s1) := rdraw d s in
           let '(xs, s2) := draws d k s1 in (x :: xs, s2)
  end.

(** sample, lines 48-62; Deterministic overrides it, lines 147-161. *)
Definition sample (r : rv V) (n : nat) : M (list V) :=
  match rv_dist r with
  | DDeter v => ret (repeat v n)
  | d => fun w =>
      match params_numpy d with
      | Err e => (Err e, w)
      | Ok p => if rvalid p
                then let '(xs, s) := draws p n (w (rv_gen r)) in (Ok xs, wset w (rv_gen r) s)
                else (Err ValueError, w)
      end
  end.
End RandVar.
Arguments cbi_form : clear implicits.

(** Seeding, __init__ lines 28-36: the initial state of a new generator.
    [seed_state] is numpy's seeding (it rejects negative seeds), [entropy] the
    state obtained from the operating system when no seed is given.
    [if test_seed:] is false for None and for 0. *)
Definition init_gen (seed_state : Z -> nat) (entropy : nat) (test_seed : option Z) : res nat :=
  match test_seed with
  | Some s => if Z.eqb s 0 then Ok entropy
              else if Z.ltb s 0 then Err ValueError
              else Ok (seed_state s)
  | None => Ok entropy
  end.
