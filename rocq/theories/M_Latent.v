(** Layered stochastic variables: LatentVar (gerabaldi/models/devices.py lines
    37-253) and EnvVrtnMdl (gerabaldi/models/phys_envs.py lines 101-298). *)
From Verif Require Export M_Base M_Num M_Nd M_RandVar.
Open Scope Z_scope.

Inductive vtype := Scaling | Offset.

Definition vtype_of (s : string) : option vtype :=
  if String.eqb s "scaling" then Some Scaling
  else if String.eqb s "offset" then Some Offset else None.

Definition vtype_eqb (a b : vtype) : bool :=
  match a, b with Scaling, Scaling | Offset, Offset => true | _, _ => false end.

Section Latent.
Context {V : Type} `{NumOps V} `{Rng V}.

(** [np.multiply if value == 'scaling' else np.add] *)
Definition op_of (t : vtype) : V -> V -> V := match t with Scaling => nmul | Offset => nadd end.
(** [0 if value == 'offset' else 1] *)
Definition unit_of (t : vtype) : V := match t with Offset => n0 | Scaling => n1 end.

(** Assignment to a <layer>_vrtn_mdl attribute: the object stored and the
    'is defined' flag; None is replaced by Deterministic(unitary).  The
    generator id of such an object is irrelevant: it is never drawn from. *)
Definition layer (unitary : V) (r : option (rv V)) : rv V * bool :=
  match r with
  | Some x => (x, true)
  | None => (Rv 0%nat (DDeter unitary) None, false)
  end.

Definition rename (r : rv V) (n : string) : rv V := Rv (rv_gen r) (rv_dist r) (Some n).

(** ** LatentVar *)

(** The slots of the object (devices.py lines 63-75); [lv_type] and [lv_op] are
    [None] while the attribute does not exist yet, during __init__. *)
Record lvar := LVar {
  lv_name : option string;
  lv_type : option vtype;
  lv_deter : option V;
  lv_unit : V;
  lv_op : option vtype;
  lv_dev : rv V; lv_devf : bool;
  lv_chp : rv V; lv_chpf : bool;
  lv_lot : rv V; lv_lotf : bool }.

(** __setattr__, devices.py lines 123-165, one function per attribute. *)
Definition set_dev (o : lvar) (r : option (rv V)) : lvar :=
  let '(x, f) := layer (lv_unit o) r in
  LVar (lv_name o) (lv_type o) (lv_deter o) (lv_unit o) (lv_op o)
       x f (lv_chp o) (lv_chpf o) (lv_lot o) (lv_lotf o).
Definition set_chp (o : lvar) (r : option (rv V)) : lvar :=
  let '(x, f) := layer (lv_unit o) r in
  LVar (lv_name o) (lv_type o) (lv_deter o) (lv_unit o) (lv_op o)
       (lv_dev o) (lv_devf o) x f (lv_lot o) (lv_lotf o).
Definition set_lot (o : lvar) (r : option (rv V)) : lvar :=
  let '(x, f) := layer (lv_unit o) r in
  LVar (lv_name o) (lv_type o) (lv_deter o) (lv_unit o) (lv_op o)
       (lv_dev o) (lv_devf o) (lv_chp o) (lv_chpf o) x f.
Definition set_deter (o : lvar) (d : option V) : lvar :=
  LVar (lv_name o) (lv_type o) d (lv_unit o) (lv_op o)
       (lv_dev o) (lv_devf o) (lv_chp o) (lv_chpf o) (lv_lot o) (lv_lotf o).

(** lines 124-136: naming the variable also names its user-defined layers *)
Definition set_name (o : lvar) (n : option string) : lvar :=
  match n with
  | None => LVar None (lv_type o) (lv_deter o) (lv_unit o) (lv_op o)
              (lv_dev o) (lv_devf o) (lv_chp o) (lv_chpf o) (lv_lot o) (lv_lotf o)
  | Some s =>
      LVar (Some s) (lv_type o) (lv_deter o) (lv_unit o) (lv_op o)
        (if lv_devf o then
           if negb (lv_chpf o) && negb (lv_lotf o) then rename (lv_dev o) s
           else rename (lv_dev o) (s ++ "_dev")
         else lv_dev o) (lv_devf o)
        (if lv_chpf o then rename (lv_chp o) (s ++ "_chp") else lv_chp o) (lv_chpf o)
        (if lv_lotf o then rename (lv_lot o) (s ++ "_lot") else lv_lot o) (lv_lotf o)
  end.

(** lines 137-151 and 165 *)
Definition set_type (o : lvar) (s : string) : res lvar :=
  match vtype_of s with
  | None => Err InvalidTypeError
  | Some t =>
      let changed := match lv_type o with None => true | Some t' => negb (vtype_eqb t' t) end in
      let o1 :=
        if changed then
          let o1 := LVar (lv_name o) (lv_type o) (lv_deter o) (unit_of t) (Some t)
                      (lv_dev o) (lv_devf o) (lv_chp o) (lv_chpf o) (lv_lot o) (lv_lotf o) in
          let o2 := if lv_lotf o1 then o1 else set_lot o1 None in
          let o3 := if lv_chpf o2 then o2 else set_chp o2 None in
          if lv_devf o3 then o3 else set_dev o3 None
        else o in
      Ok (LVar (lv_name o1) (Some t) (lv_deter o1) (lv_unit o1) (lv_op o1)
            (lv_dev o1) (lv_devf o1) (lv_chp o1) (lv_chpf o1) (lv_lot o1) (lv_lotf o1))
  end.

(** __init__, lines 83-121: _unitary is 0 while the layers are assigned. *)
Definition lvar_init (dev chp lot : option (rv V)) (deter : option V)
    (name : option string) (vt : string) : res lvar :=
  let '(d, df) := layer n0 dev in
  let '(c, cf) := layer n0 chp in
  let '(l, lf) := layer n0 lot in
  let o := LVar None None deter n0 None d df c cf l lf in
  rbind (set_type (set_name o name) vt) (fun o' =>
    match dev, deter with
    | None, None => Err UserConfigError
    | _, _ => Ok o'
    end).

(** An assignment statement on an existing object.  An invalid vrtn_type raises
    and leaves the object as it was. *)
Inductive lassign :=
| LDev (r : option (rv V)) | LChp (r : option (rv V)) | LLot (r : option (rv V))
| LType (s : string) | LDeter (d : option V) | LName (n : option string).

Definition lvar_assign (o : lvar) (a : lassign) : res unit * lvar :=
  match a with
  | LDev r => (Ok tt, set_dev o r)
  | LChp r => (Ok tt, set_chp o r)
  | LLot r => (Ok tt, set_lot o r)
  | LDeter d => (Ok tt, set_deter o d)
  | LName n => (Ok tt, set_name o n)
  | LType s => match set_type o s with Ok o' => (Ok tt, o') | Err e => (Err e, o) end
  end.

(** gen_latent_vals, lines 167-196 *)
Definition gen_latent (o : lvar) (D C L : nat) : M (nd V) :=
  (lots <- sample (lv_lot o) L ;;
   chps <- sample (lv_chp o) (L * C) ;;
   devs <- sample (lv_dev o) (L * C * D) ;;
   lift
     (rbind (nreshape [L; 1; 1]%nat (Nd [L] lots)) (fun lot =>
      rbind (nreshape [L; C; 1]%nat (Nd [L * C]%nat chps)) (fun chp =>
      rbind (nreshape [L; C; D]%nat (Nd [L * C * D]%nat devs)) (fun dev =>
      match lv_op o with
      | None => Err AttributeError
      | Some t =>
          rbind (match lv_deter o with
                 | Some v => bmap2 (op_of t) (nfull [L; C; D]%nat v) dev
                 | None => Ok dev
                 end) (fun vals =>
          rbind (bmap2 (op_of t) vals chp) (fun x => bmap2 (op_of t) x lot))
      end)))))%m.

(** cbi_export, lines 198-253: the distributions handed to the framework and how
    they are combined (op(op(dev, chp), lot) over the layers present), and the
    object afterwards.  Truth of a number: not equal to 0.  The three layers are
    taken to be distinct objects (a layer object shared by two attributes would be
    re-centred in both). *)
Record cbi := Cbi {
  cbi_op : vtype; cbi_dev : cbi_form V; cbi_chp : option (cbi_form V); cbi_lot : option (cbi_form V) }.

Definition truthy (v : V) : bool := negb (neqb v n0).

Definition with_dev (o : lvar) (r : rv V) : lvar :=
  LVar (lv_name o) (lv_type o) (lv_deter o) (lv_unit o) (lv_op o)
       r (lv_devf o) (lv_chp o) (lv_chpf o) (lv_lot o) (lv_lotf o).

Definition cbi_export (o : lvar) (target : string) : res cbi * lvar :=
  if negb (lv_devf o) then (Err UserConfigError, o)
  else if negb (String.eqb target "pymc" || String.eqb target "pyro")%bool then (Err NotImplementedErr, o)
  else
    let t := match lv_type o with Some Scaling => Scaling | _ => Offset end in
    (* lines 222-227; set_centre mutates the distribution object *)
    let pre : res (option V * lvar) :=
      match lv_deter o with
      | Some v =>
          if truthy v then
            rbind (get_centre (lv_dev o)) (fun c =>
            rbind (set_centre (lv_dev o) v (Some (op_of t))) (fun r => Ok (Some c, with_dev o r)))
          else Ok (None, o)
      | None => Ok (None, o)
      end in
    match pre with
    | Err e => (Err e, o)
    | Ok (old, o1) =>
        let layer_form (f : bool) (r : rv V) : res (option (cbi_form V)) :=
          if f then rbind (get_cbi_form r target) (fun x => Ok (Some x)) else Ok None in
        let r := rbind (get_cbi_form (lv_dev o1) target) (fun d =>
                 rbind (layer_form (lv_chpf o1) (lv_chp o1)) (fun c =>
                 rbind (layer_form (lv_lotf o1) (lv_lot o1)) (fun l => Ok (Cbi t d c l)))) in
        match r with
        | Err e => (Err e, o1)   (* no finally: the centre is not restored *)
        | Ok x =>
            match old with
            | Some c =>
                if truthy c then
                  match set_centre (lv_dev o1) c None with
                  | Ok r' => (Ok x, with_dev o1 r')
                  | Err e => (Err e, o1)
                  end
                else (Ok x, o1)
            | None => (Ok x, o1)
            end
        end
    end.

(** ** EnvVrtnMdl *)

Record emdl := EMdl {
  em_name : option string;
  em_type : option vtype;
  em_unit : V;
  em_op : option vtype;
  em_bat : rv V; em_batf : bool;
  em_chp : rv V; em_chpf : bool;
  em_dev : rv V; em_devf : bool }.

(** __setattr__, phys_envs.py lines 177-206 *)
Definition eset_bat (o : emdl) (r : option (rv V)) : emdl :=
  let '(x, f) := layer (em_unit o) r in
  EMdl (em_name o) (em_type o) (em_unit o) (em_op o) x f (em_chp o) (em_chpf o) (em_dev o) (em_devf o).
Definition eset_chp (o : emdl) (r : option (rv V)) : emdl :=
  let '(x, f) := layer (em_unit o) r in
  EMdl (em_name o) (em_type o) (em_unit o) (em_op o) (em_bat o) (em_batf o) x f (em_dev o) (em_devf o).
Definition eset_dev (o : emdl) (r : option (rv V)) : emdl :=
  let '(x, f) := layer (em_unit o) r in
  EMdl (em_name o) (em_type o) (em_unit o) (em_op o) (em_bat o) (em_batf o) (em_chp o) (em_chpf o) x f.
Definition eset_name (o : emdl) (n : option string) : emdl :=
  EMdl n (em_type o) (em_unit o) (em_op o) (em_bat o) (em_batf o) (em_chp o) (em_chpf o) (em_dev o) (em_devf o).

Definition eset_type (o : emdl) (s : string) : res emdl :=
  match vtype_of s with
  | None => Err InvalidTypeError
  | Some t =>
      let changed := match em_type o with None => true | Some t' => negb (vtype_eqb t' t) end in
      let o1 :=
        if changed then
          let o1 := EMdl (em_name o) (em_type o) (unit_of t) (Some t)
                      (em_bat o) (em_batf o) (em_chp o) (em_chpf o) (em_dev o) (em_devf o) in
          let o2 := if em_batf o1 then o1 else eset_bat o1 None in
          let o3 := if em_chpf o2 then o2 else eset_chp o2 None in
          if em_devf o3 then o3 else eset_dev o3 None
        else o in
      Ok (EMdl (em_name o1) (Some t) (em_unit o1) (em_op o1)
            (em_bat o1) (em_batf o1) (em_chp o1) (em_chpf o1) (em_dev o1) (em_devf o1))
  end.

(** __init__, lines 139-175 *)
Definition emdl_init (dev chp bat : option (rv V)) (vt : string) (name : option string) : res emdl :=
  let '(b, bf) := layer n0 bat in
  let '(d, df) := layer n0 dev in
  let '(c, cf) := layer n0 chp in
  eset_type (EMdl name None n0 None b bf c cf d df) vt.

Inductive eassign :=
| EDev (r : option (rv V)) | EChp (r : option (rv V)) | EBat (r : option (rv V))
| EType (s : string) | EName (n : option string).

Definition emdl_assign (o : emdl) (a : eassign) : res unit * emdl :=
  match a with
  | EDev r => (Ok tt, eset_dev o r)
  | EChp r => (Ok tt, eset_chp o r)
  | EBat r => (Ok tt, eset_bat o r)
  | EName n => (Ok tt, eset_name o n)
  | EType s => match eset_type o s with Ok o' => (Ok tt, o') | Err e => (Err e, o) end
  end.

Definition em_opE (o : emdl) : res (V -> V -> V) :=
  match em_op o with Some t => Ok (op_of t) | None => Err AttributeError end.

(** gen_batch_vrtn, lines 208-222: a scalar base value; the result has shape (1,). *)
Definition gen_batch (o : emdl) (base : V) : M (nd V) :=
  (xs <- sample (em_bat o) 1 ;;
   lift (rbind (em_opE o) (fun op => bmap2 op (Nd [] [base]) (Nd [1%nat] xs))))%m.

(** gen_chp_vrtns, lines 224-247 *)
Definition gen_chp (o : emdl) (base : nd V) (C L : nat) : M (nd V) :=
  (vals <- lift (nfull_arr [L; C] base) ;;
   op <- lift (em_opE o) ;;
   xs <- sample (em_chp o) (C * L) ;;
   lift (rbind (nreshape [L; C] (Nd [C * L]%nat xs)) (fun c => bmap2 op vals c)))%m.

(** gen_dev_vrtns, lines 249-276, for an array base value *)
Definition gen_dev (o : emdl) (base : nd V) (D : nat) : M (nd V) :=
  (op <- lift (em_opE o) ;;
   xs <- sample (em_dev o) (D * length (ndata base)) ;;
   match nshape base with
   | a :: b :: _ =>
       lift (rbind (nreshape [a; b; D] (Nd [length xs] xs)) (fun d => bmap2 op (nexpand base) d))
   | _ => raise IndexError
   end)%m.

(** gen_dev_vrtns with a number as base value, lines 268-269 *)
Definition gen_dev_num (o : emdl) (base : V) (D : nat) : M (nd V) := gen_dev o (Nd [1; 1]%nat [base]) D.

(** gen_env_vrtns, lines 278-298 *)
Definition gen_env (o : emdl) (base : V) (D C L : nat) : M (nd V) :=
  (b <- gen_batch o base ;; c <- gen_chp o b C L ;; gen_dev o c D)%m.
End Latent.
Arguments lvar : clear implicits.
Arguments emdl : clear implicits.
Arguments cbi : clear implicits.
Arguments lassign : clear implicits.
Arguments eassign : clear implicits.
