(** Construction of a LatentMdl (gerabaldi/models/devices.py lines 256-301), with the
    identity of the LatentVar objects passed to it. *)
From Coq Require Import QArith.
From Verif Require Export M_Base M_Num M_Nd M_RandVar M_Latent M_Device.
Open Scope nat_scope.

Section LatentMdl.
Context {V : Type} `{NumOps V}.

(** lines 278-281: a variable without a name (None or the empty string) is given the
    keyword's *)
Definition name_var (key : string) (o : lvar V) : lvar V :=
  match lv_name o with
  | None | Some ""%string => set_name o (Some key)
  | Some _ => o
  end.

(** lines 264-269: the default equation *)
Definition eqn_x : eqn V := Eqn ["x"%string] [] None (fun a => lift (dgetE a "x")).

(** __init__: the keyword arguments name objects of the table [objs]; the table
    afterwards and the model, whose variables are those objects as they then are. *)
Definition lmdl_init (f : option (eqn V)) (objs : list (lvar V)) (kwargs : dict nat) : list (lvar V) * res (lmdl V) :=
  let objs' := fold_left (fun os (kv : string * nat) => upd os (snd kv) (name_var (fst kv))) kwargs objs in
  let vars := (fix go (l : dict nat) : res (dict (lvar V)) :=
                 match l with
                 | [] => Ok []
                 | (k, i) :: r =>
                     match nth_error objs' i with
                     | None => Err Unmodelled      (* not an object of the table *)
                     | Some o => rbind (go r) (fun d => Ok ((k, o) :: d))
                     end
                 end) kwargs in
  (objs', rbind vars (fun d => Ok (LMdl (match f with Some g => g | None => eqn_x end) d))).

(** ** export_to_cbi, lines 323-356 *)

(** What the equation is called with: an exported latent variable or an observed
    value. *)
Inductive cbi_arg := ALatent (x : cbi V) | AObs (p : pyval V).

(** The output variable: its name, the arguments whose image under the equation is
    its mean, its spread and its observed values.  The framework objects themselves
    are not modelled. *)
Record cbi_out := CbiOut { co_name : string; co_args : dict cbi_arg; co_sigma : Q; co_obs : pyval V }.

(** lines 340-342: the exports in order; a failure leaves the variables exported so
    far (and the failing one) as cbi_export left them.  Every keyword is taken to
    name an object of its own. *)
Fixpoint export_vars (target : string) (vars : dict (lvar V)) : res (dict cbi_arg) * dict (lvar V) :=
  match vars with
  | [] => (Ok [], [])
  | (k, o) :: r =>
      match cbi_export o target with
      | (Err e, o') => (Err e, (k, o') :: r)
      | (Ok x, o') =>
          let '(d, r') := export_vars target r in
          (rbind d (fun d => Ok ((k, ALatent x) :: d)), (k, o') :: r')
      end
  end.

(** lines 345-347: the loop over None raises TypeError; the observations of the
    model's own output are left out *)
Definition add_observed (name : option string) (obs : dict (pyval V)) (vals : dict cbi_arg) : dict cbi_arg :=
  fold_left (fun acc (kv : string * pyval V) =>
               if match name with Some n => String.eqb (fst kv) n | None => false end then acc
               else dset acc (fst kv) (AObs (snd kv))) obs vals.

(** The call on line 350 raises TypeError for a missing or an unexpected argument;
    what else the equation does with framework objects is not modelled.  Line 354
    looks up the observations of the output (KeyError).  Line 356 asks the sampled
    values, a tensor, for to_event: AttributeError. *)
Definition mdl_export (name : option string) (m : lmdl V) (target : string) (observed : option (dict (pyval V))) :
  res cbi_out * lmdl V :=
  let '(vals, vars') := export_vars target (lm_vars m) in
  let m' := LMdl (lm_eqn m) vars' in
  (rbind vals (fun vals =>
   match observed with
   | None => Err TypeError
   | Some obs =>
       let args := add_observed name obs vals in
       if forallb (dmem args) (e_req (lm_eqn m)) &&
          match e_kw (lm_eqn m) with
          | Some _ => true
          | None => forallb (fun k => smem k (e_req (lm_eqn m) ++ e_opt (lm_eqn m))) (dkeys args)
          end
       then match name with
            | None => Err KeyError
            | Some n =>
                rbind (dgetE obs n) (fun o =>
                  if String.eqb target "pymc" then Ok (CbiOut n args 1 o) else Err AttributeError)
            end
       else Err TypeError
   end), m').
End LatentMdl.
Arguments cbi_arg : clear implicits.
Arguments cbi_out : clear implicits.
