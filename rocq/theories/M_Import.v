(** Optional packages: gerabaldi/helpers.py lines 128-148 (_on_demand_import), and the
    exports of random_vars.py lines 64-101, devices.py lines 198-253 and 323-356 when
    pymc, pyro or torch cannot be imported.  M_RandVar.v, M_Latent.v and
    M_LatentMdl.v model the same methods with all packages installed. *)
From Verif Require Import M_Base M_Num M_Nd M_RandVar M_Latent M_Device M_LatentMdl.
Open Scope nat_scope.

(** What a method raises: one of the exceptions of M_Base.v, or ImportError with a
    message. *)
Inductive raised := Raised (e : exn) | ImportErr (msg : string).
Inductive out (A : Type) := Gives (a : A) | Fails (x : raised).
Arguments Gives {A} _.  Arguments Fails {A} _.
Definition obind {A B} (o : out A) (f : A -> out B) : out B :=
  match o with Gives a => f a | Fails x => Fails x end.
Definition of_res {A} (r : res A) : out A := match r with Ok a => Gives a | Err e => Fails (Raised e) end.

(** What importlib.import_module does: it succeeds, raises ImportError or
    SystemError, or raises something else. *)
Inductive import := Imports | NotFound | Crashes (e : exn).

(** The module, or an object that raises ImportError with a message when an attribute
    is asked for.  An empty package name counts as none. *)
Inductive optmod := Loaded | FailedImport (hint : string).
Definition hint (module pkg : string) : string :=
  ("Trying to use a feature that requires the optional " ++ module ++ " module. Please install or fix package """
    ++ pkg ++ """ first.")%string.
Definition on_demand_import (sys : string -> import) (module : string) (pypi : option string) : out optmod :=
  match sys module with
  | Imports => Gives Loaded
  | NotFound => Gives (FailedImport (hint module (match pypi with None | Some ""%string => module | Some p => p end)))
  | Crashes e => Fails (Raised e)
  end.
Definition attribute (m : optmod) : out unit :=
  match m with Loaded => Gives tt | FailedImport h => Fails (ImportErr h) end.

(** devices.py lines 19-22 (random_vars.py lines 14-16 and phys_envs.py lines 22-24
    import the same modules in the same way). *)
Record modules := Modules { m_pymc : optmod; m_pyro : optmod; m_dist : optmod; m_torch : optmod }.
Definition import_all (sys : string -> import) : out modules :=
  obind (on_demand_import sys "pymc" None) (fun a =>
  obind (on_demand_import sys "pyro" (Some "pyro-ppl"%string)) (fun b =>
  obind (on_demand_import sys "pyro.distributions" (Some "pyro-ppl"%string)) (fun c =>
  obind (on_demand_import sys "torch" None) (fun d => Gives (Modules a b c d))))).

Section Export.
Context {V : Type} `{NumOps V}.
Variable mods : modules.

(** random_vars.py lines 80-101: the module's attribute is asked for before the
    distribution's parameters; only AttributeError is caught. *)
Definition get_cbi_form' (r : rv V) (target : string) : out (cbi_form V) :=
  if String.eqb target "pymc" then
    obind (attribute (m_pymc mods)) (fun _ => of_res (get_cbi_form r target))
  else if String.eqb target "pyro" then
    obind (attribute (m_pyro mods)) (fun _ => obind (attribute (m_dist mods)) (fun _ =>
      of_res (get_cbi_form r target)))
  else of_res (get_cbi_form r target).

(** devices.py lines 198-253; lines 217 and 235-245 ask torch and pymc for attributes. *)
Definition cbi_export' (o : lvar V) (target : string) : out (cbi V) * lvar V :=
  if negb (lv_devf o) then (Fails (Raised UserConfigError), o)
  else if negb (String.eqb target "pymc" || String.eqb target "pyro")%bool then (Fails (Raised NotImplementedErr), o)
  else
    match (if String.eqb target "pyro" then attribute (m_torch mods) else Gives tt) with
    | Fails x => (Fails x, o)
    | Gives _ =>
    let t := match lv_type o with Some Scaling => Scaling | _ => Offset end in
    let pre : res (option V * lvar V) :=
      match lv_deter o with
      | Some v =>
          if truthy v then
            rbind (get_centre (lv_dev o)) (fun c =>
            rbind (set_centre (lv_dev o) v (Some (op_of t))) (fun r => Ok (Some c, with_dev o r)))
          else Ok (None, o)
      | None => Ok (None, o)
      end in
    match pre with
    | Err e => (Fails (Raised e), o)
    | Ok (old, o1) =>
        let layer_form (f : bool) (r : rv V) : out (option (cbi_form V)) :=
          if f then obind (get_cbi_form' r target) (fun x => Gives (Some x)) else Gives None in
        let r := obind (get_cbi_form' (lv_dev o1) target) (fun d =>
                 obind (layer_form (lv_chpf o1) (lv_chp o1)) (fun c =>
                 obind (layer_form (lv_lotf o1) (lv_lot o1)) (fun l =>
                 obind (if (String.eqb target "pymc" && (lv_chpf o1 || lv_lotf o1))%bool
                        then attribute (m_pymc mods) else Gives tt) (fun _ => Gives (Cbi t d c l))))) in
        match r with
        | Fails x => (Fails x, o1)
        | Gives x =>
            match old with
            | Some c =>
                if truthy c then
                  match set_centre (lv_dev o1) c None with
                  | Ok r' => (Gives x, with_dev o1 r')
                  | Err e => (Fails (Raised e), o1)
                  end
                else (Gives x, o1)
            | None => (Gives x, o1)
            end
        end
    end
    end.

(** devices.py lines 340-342 *)
Fixpoint export_vars' (target : string) (vars : dict (lvar V)) : out (dict (cbi_arg V)) * dict (lvar V) :=
  match vars with
  | [] => (Gives [], [])
  | (k, o) :: r =>
      match cbi_export' o target with
      | (Fails e, o') => (Fails e, (k, o') :: r)
      | (Gives x, o') =>
          let '(d, r') := export_vars' target r in
          (obind d (fun d => Gives ((k, ALatent x) :: d)), (k, o') :: r')
      end
  end.

(** lines 338-356: pymc.Normal, or pyro.sample and dist.Normal, are looked up before
    the observations. *)
Definition mdl_export' (name : option string) (m : lmdl V) (target : string) (observed : option (dict (pyval V))) :
  out (cbi_out V) * lmdl V :=
  let '(vals, vars') := export_vars' target (lm_vars m) in
  let m' := LMdl (lm_eqn m) vars' in
  (obind vals (fun vals =>
   match observed with
   | None => Fails (Raised TypeError)
   | Some obs =>
       let args := add_observed name obs vals in
       if forallb (dmem args) (e_req (lm_eqn m)) &&
          match e_kw (lm_eqn m) with
          | Some _ => true
          | None => forallb (fun k => smem k (e_req (lm_eqn m) ++ e_opt (lm_eqn m))) (dkeys args)
          end
       then obind (if String.eqb target "pymc" then attribute (m_pymc mods)
                   else obind (attribute (m_pyro mods)) (fun _ => attribute (m_dist mods))) (fun _ =>
            match name with
            | None => Fails (Raised KeyError)
            | Some n =>
                obind (of_res (dgetE obs n)) (fun o =>
                  if String.eqb target "pymc" then Gives (CbiOut n args 1 o) else Fails (Raised AttributeError))
            end)
       else Fails (Raised TypeError)
   end), m').
End Export.
