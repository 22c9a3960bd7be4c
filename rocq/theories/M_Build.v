(** Construction of parameter and device models, with object identity
    (gerabaldi/models/devices.py lines 263-299, 366-382, 817-895, 1240-1290). *)
From Verif Require Import M_Base M_Nd M_Num M_RandVar M_Latent M_Time M_Device.
Open Scope nat_scope.

(** Objects are cells of a heap.  Latent variables and mechanisms are shared between
    models by reference; everything about them that construction does not touch
    (distributions, equations) is [what]. *)
Section Build.
Context {X Y Z : Type}.

Record latobj := LatObj { lo_name : option string; lo_what : X }.
(** [mo_std]: the type of the object is DegMechMdl or FailMechMdl itself *)
Record mechobj := MechObj { mo_name : option string; mo_unit : option string; mo_std : bool; mo_what : Y }.

(** An attribute set by the constructors holds a latent variable or a mechanism.  The
    other attributes (name, compute, init_mdl, ...) and the methods do not start with
    '_latent_', and none starts with '_' and ends in '_mdl'. *)
Inductive ref := RLat (i : nat) | RMech (i : nat).
(** DegPrmMdl ([po_deg]) or CircPrmMdl *)
Record prmobj := PrmObj {
  po_deg : bool; po_name : option string; po_unit : option string;
  po_attrs : dict ref; po_mechs : list string; po_lats : list string; po_what : Z }.

Record objs := Objs { ob_lats : list latobj; ob_mechs : list mechobj; ob_prms : list prmobj }.

(** Python truth value of a name *)
Definition named (n : option string) : bool := match n with None | Some ""%string => false | Some _ => true end.

(** LatentMdl.__init__, lines 275-282: for every keyword argument in order *)
Definition add_latent (acc : list latobj * (dict ref * list string)) (kv : string * nat) :=
  let '(lats, (attrs, names)) := acc in
  let '(x, i) := kv in
  (upd lats i (fun o => if named (lo_name o) then o else LatObj (Some x) (lo_what o)),
   (dset attrs ("_latent_" ++ x) (RLat i), names ++ [x])).
Definition add_latents (lats : list latobj) (attrs : dict ref) (given : dict nat) :=
  fold_left add_latent given (lats, (attrs, [])).

(** ** DegPrmMdl.__init__, lines 845-872 *)
Inductive mechs_arg := MDict (d : dict nat) | MOne (i : nat).

(** lines 853-857 *)
Definition add_mech (acc : list mechobj * (dict ref * list string)) (kv : string * nat) :=
  let '(mechs, (attrs, names)) := acc in
  let '(k, i) := kv in
  (upd mechs i (fun o => MechObj (Some k) (mo_unit o) (mo_std o) (mo_what o)),
   (dset attrs ("_" ++ k ++ "_mdl") (RMech i), names ++ [k])).

(** lines 853-862; a reference to an object that does not exist is not modelled *)
Definition add_mechs (mechs : list mechobj) (a : mechs_arg) : res (list mechobj * (dict ref * list string)) :=
  match a with
  | MDict d => Ok (fold_left add_mech d (mechs, ([], [])))
  | MOne i =>
      match nth_error mechs i with
      | None => Err Unmodelled
      | Some o =>
          match mo_name o with
          | None | Some ""%string => Err UserConfigError
          | Some k => Ok (mechs, ([("_" ++ k ++ "_mdl", RMech i)]%string, [k]))
          end
      end
  end.

(** The new parameter is the last object of [ob_prms]. *)
Definition new_deg_prm (h : objs) (a : mechs_arg) (name unit : option string) (lats : dict nat) (what : Z) : res objs :=
  rbind (add_mechs (ob_mechs h) a) (fun '(mechs, (attrs, mnames)) =>
    let '(lh, (attrs', lnames)) := add_latents (ob_lats h) attrs lats in
    Ok (Objs lh mechs (ob_prms h ++ [PrmObj true name unit attrs' mnames lnames what]))).

(** CircPrmMdl.__init__, lines 1142-1157 *)
Definition new_circ_prm (h : objs) (name : option string) (lats : dict nat) (what : Z) : objs :=
  let '(lh, (attrs, lnames)) := add_latents (ob_lats h) [] lats in
  Objs lh (ob_mechs h) (ob_prms h ++ [PrmObj false name None attrs [] lnames what]).

(** getattr of the attributes above *)
Definition mech_mdl (p : prmobj) (k : string) : option ref := dget (po_attrs p) ("_" ++ k ++ "_mdl").
Definition latent_var (p : prmobj) (x : string) : option ref := dget (po_attrs p) ("_latent_" ++ x).

(** DegPrmMdl.propagate_time_unit, lines 874-878; set_time_unit, lines 409-415.  A
    LatentVar found under the name of a mechanism has another type and is skipped; a
    missing attribute cannot occur and is skipped too. *)
Definition unit_of_mech (u : option string) (p : prmobj) (mechs : list mechobj) (k : string) : list mechobj :=
  match mech_mdl p k with
  | Some (RMech i) =>
      upd mechs i (fun o => if mo_std o then MechObj (mo_name o) (set_time_unit (mo_unit o) u) (mo_std o) (mo_what o) else o)
  | _ => mechs
  end.
Definition prm_units (dev : option string) (mechs : list mechobj) (p : prmobj) : list mechobj :=
  if po_deg p then fold_left (unit_of_mech (or_unit (po_unit p) dev) p) (po_mechs p) mechs else mechs.

(** ** DeviceMdl.__init__, lines 1251-1271 *)
Record devobj := DevObj { vo_name : option string; vo_unit : option string; vo_attrs : dict nat; vo_prms : list string }.
Definition prm_mdl (v : devobj) (k : string) : option nat := dget (vo_attrs v) ("_" ++ k ++ "_mdl").

Definition set_prm_name (k : string) (p : prmobj) : prmobj :=
  PrmObj (po_deg p) (Some k) (po_unit p) (po_attrs p) (po_mechs p) (po_lats p) (po_what p).
Definition add_prm (acc : list prmobj * (dict nat * list string)) (kv : string * nat) :=
  let '(prms, (attrs, names)) := acc in
  let '(k, i) := kv in
  (upd prms i (set_prm_name k), (dset attrs ("_" ++ k ++ "_mdl") i, names ++ [k])).

Definition add_prms (prms : list prmobj) (a : mechs_arg) : res (list prmobj * (dict nat * list string)) :=
  match a with
  | MDict d => Ok (fold_left add_prm d (prms, ([], [])))
  | MOne i =>
      match nth_error prms i with
      | None => Err Unmodelled
      | Some o =>
          match po_name o with
          | None | Some ""%string => Err UserConfigError
          | Some k => Ok (prms, ([("_" ++ k ++ "_mdl", i)]%string, [k]))
          end
      end
  end.

(** DeviceMdl.propagate_time_unit, lines 1268-1271 *)
Definition dev_units (dev : option string) (v : devobj) (prms : list prmobj) (mechs : list mechobj) : list mechobj :=
  fold_left (fun ms k => match prm_mdl v k with
                         | Some i => match nth_error prms i with Some p => prm_units dev ms p | None => ms end
                         | None => ms
                         end) (vo_prms v) mechs.

Definition new_device (h : objs) (a : mechs_arg) (name unit : option string) : res (objs * devobj) :=
  rbind (add_prms (ob_prms h) a) (fun '(prms, (attrs, names)) =>
    let v := DevObj name unit attrs names in
    Ok (Objs (ob_lats h) (dev_units unit v prms (ob_mechs h)) prms, v)).
End Build.
Arguments latobj : clear implicits.
Arguments mechobj : clear implicits.
Arguments prmobj : clear implicits.
Arguments objs : clear implicits.
