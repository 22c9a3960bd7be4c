(** Specification notions for models built from latent variables. *)
From Verif Require Import M_Base M_Num M_Nd M_RandVar M_Latent M_Device.
Open Scope nat_scope.

(** The first keyword under which an object is passed. *)
Fixpoint first_key (kwargs : dict nat) (i : nat) : option string :=
  match kwargs with
  | [] => None
  | (k, j) :: r => if Nat.eqb j i then Some k else first_key r i
  end.

(** The name an object has after the construction: its own if it has one, else the
    first keyword it was passed under. *)
Definition named_after (own : option string) (kwargs : dict nat) (i : nat) : option string :=
  match own with
  | Some s => if String.eqb s "" then match first_key kwargs i with Some k => Some k | None => own end else own
  | None => first_key kwargs i
  end.
