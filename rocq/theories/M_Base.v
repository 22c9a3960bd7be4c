(** Base notions shared by the whole model: Python exceptions as values, the
    effect monad (random generator positions), insertion-ordered dictionaries. *)
From Coq Require Export String ZArith Bool Lia List.
Export ListNotations.
Open Scope list_scope.

(** Exception classes that the modelled code (or Python itself) can raise.
    [UserConfigError], [InvalidTypeError], [MissingParamError] are
    gerabaldi/exceptions.py lines 17-30; [UserWarningE] is the builtin
    UserWarning raised (not warned) by TestSpec.append_steps.
    [UserExn n] stands for any other exception a user equation raises.
    [Unmodelled] marks behaviour the model does not describe; it is never a
    success. *)
Inductive exn :=
| KeyError | TypeError | AttributeError | ValueError | IndexError | OverflowError
| ZeroDivisionError | NotImplementedErr | StopIteration
| UserConfigError | InvalidTypeError | MissingParamError | UserWarningE
| UserExn (n : nat)
| Unmodelled.

Definition exn_eq_dec (a b : exn) : {a = b} + {a <> b}.
Proof. decide equality; apply Nat.eq_dec. Defined.

Inductive res (A : Type) := Ok (a : A) | Err (e : exn).
Arguments Ok {A} _.  Arguments Err {A} _.

Definition rbind {A B} (r : res A) (f : A -> res B) : res B :=
  match r with Ok a => f a | Err e => Err e end.

Definition is_ok {A} (r : res A) : bool := match r with Ok _ => true | Err _ => false end.

(** State of every random generator object (the internal state of a bit generator
    is a finite bit string, encoded here as a natural number). *)
Definition world := nat -> nat.

(** A Python computation: it may draw random numbers and it may raise.  Draws
    made before an exception stay consumed. *)
Definition M (A : Type) := world -> res A * world.

Definition ret {A} (a : A) : M A := fun w => (Ok a, w).
Definition raise {A} (e : exn) : M A := fun w => (Err e, w).
Definition bind {A B} (m : M A) (f : A -> M B) : M B :=
  fun w => match m w with
           | (Ok a, w') => f a w'
           | (Err e, w') => (Err e, w')
           end.
Definition lift {A} (r : res A) : M A := fun w => (r, w).

(** [try: m  except ValueError: h] *)
Definition try_value_error {A} (m h : M A) : M A :=
  fun w => match m w with
           | (Err ValueError, w') => h w'
           | r => r
           end.

Declare Scope m_scope.
Delimit Scope m_scope with m.
Notation "x <- a ;; b" := (bind a (fun x => b))
  (at level 61, a at next level, right associativity) : m_scope.
Notation "a ;;; b" := (bind a (fun _ => b))
  (at level 61, right associativity) : m_scope.
Open Scope m_scope.

Fixpoint mapM {A B} (f : A -> M B) (l : list A) : M (list B) :=
  match l with
  | [] => ret []
  | x :: r => y <- f x ;; ys <- mapM f r ;; ret (y :: ys)
  end.

Fixpoint foldM {A S} (f : S -> A -> M S) (l : list A) (s : S) : M S :=
  match l with
  | [] => ret s
  | x :: r => s' <- f s x ;; foldM f r s'
  end.

(** Insertion-ordered dictionaries with string keys (Python dict). *)
Definition dict (A : Type) := list (string * A).

Fixpoint dget {A} (d : dict A) (k : string) : option A :=
  match d with
  | [] => None
  | (k', a) :: r => if String.eqb k k' then Some a else dget r k
  end.

(** [d[k] = a]: replaces in place, otherwise appends at the end. *)
Fixpoint dset {A} (d : dict A) (k : string) (a : A) : dict A :=
  match d with
  | [] => [(k, a)]
  | (k', a') :: r => if String.eqb k k' then (k, a) :: r else (k', a') :: dset r k a
  end.

Definition dmem {A} (d : dict A) (k : string) : bool :=
  match dget d k with Some _ => true | None => false end.

Definition dkeys {A} (d : dict A) : list string := map fst d.

(** [d.update(e)] *)
Definition dupdate {A} (d e : dict A) : dict A :=
  fold_left (fun acc kv => dset acc (fst kv) (snd kv)) e d.

(** [d[k]] as an expression: KeyError when absent. *)
Definition dgetE {A} (d : dict A) (k : string) : res A :=
  match dget d k with Some a => Ok a | None => Err KeyError end.

Definition smem (k : string) (l : list string) : bool := existsb (String.eqb k) l.

(** Keys are distinct: true of every Python dictionary. *)
Definition dwf {A} (d : dict A) : Prop := NoDup (dkeys d).
