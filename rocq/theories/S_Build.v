(** Specification of the construction of parameter and device models. *)
From Verif Require Import M_Base M_Build S_Device.
Open Scope nat_scope.

Section Spec.
Context {X Y Z : Type}.

(** What a constructor was given: a dictionary, or one object that has a name. *)
Inductive was_given (name_of : nat -> option string) : mechs_arg -> list (string * nat) -> Prop :=
| gv_dict d : dwf d -> was_given name_of (MDict d) d
| gv_one i k : name_of i = Some k -> k <> ""%string -> was_given name_of (MOne i) [(k, i)].

Definition mech_name (h : objs X Y Z) (i : nat) : option string :=
  match nth_error (ob_mechs h) i with Some o => mo_name o | None => None end.
Definition prm_name (h : objs X Y Z) (i : nat) : option string :=
  match nth_error (ob_prms h) i with Some o => po_name o | None => None end.

(** The attribute of mechanism [k] is also that of latent variable [x]. *)
Inductive clash : string -> string -> Prop :=
| cl_bare : clash "latent" "mdl"
| cl_long y : clash ("latent_" ++ y) (y ++ "_mdl").

(** The last key under which object [i] was given. *)
Definition last_key (d : list (string * nat)) (i : nat) (k : string) : Prop :=
  exists d1 d2, d = d1 ++ (k, i) :: d2 /\ ~ In i (map snd d2).
(** The first one. *)
Definition first_key (d : list (string * nat)) (i : nat) (k : string) : Prop :=
  exists d1 d2, d = d1 ++ (k, i) :: d2 /\ ~ In i (map snd d1).

(** Parameter [p] has mechanism [i]. *)
Definition uses (p : prmobj Z) (i : nat) : Prop :=
  po_deg p = true /\ exists k, In k (po_mechs p) /\ mech_mdl p k = Some (RMech i).

(** The same model under another name. *)
Definition same_prm (p q : prmobj Z) : Prop :=
  po_deg q = po_deg p /\ po_unit q = po_unit p /\ po_attrs q = po_attrs p /\ po_mechs q = po_mechs p /\
  po_lats q = po_lats p /\ po_what q = po_what p.
End Spec.
