(** Measurement instruments and the test environment
    (gerabaldi/models/phys_envs.py lines 29-98 and 301-457). *)
From Coq Require Import QArith.
From Verif Require Export M_Base M_Num M_Nd M_RandVar M_Latent M_Device M_Report.
Open Scope nat_scope.

(** MeasInstrument, lines 29-55.  A limit may be None inside the tuple. *)
Record instm (V : Type) := Instm {
  in_name : option string; in_prec : option Z; in_err : option (rv V);
  in_range : option (option V * option V) }.
Arguments Instm {V} _ _ _ _.
Arguments in_name {V} _. Arguments in_prec {V} _. Arguments in_err {V} _. Arguments in_range {V} _.

Section Instm.
Context {V : Type} `{NumOps V} `{Rng V}.

(** lines 83-85: elementwise sum with the sampled errors *)
Fixpoint zip_add (xs es : list V) : list V :=
  match xs, es with x :: xs', e :: es' => nadd x e :: zip_add xs' es' | _, _ => [] end.

(** line 91: [x if x == 0 or np.isinf(x) else np.round(x, p - int(floor(log10(abs(x)))) - 1)];
    floor of NaN raises ValueError *)
Definition round_sig (p : Z) (x : V) : res V :=
  if neqb x n0 || nisinf x then Ok x
  else match nflog10 x with
       | Some e => Ok (nround x (p - e - 1)%Z)
       | None => Err ValueError
       end.

Fixpoint map_res {A B} (f : A -> res B) (l : list A) : res (list B) :=
  match l with
  | [] => Ok []
  | x :: r => rbind (f x) (fun y => rbind (map_res f r) (fun ys => Ok (y :: ys)))
  end.

(** pandas clip with scalar limits: limits that are NaN count as absent, two limits
    in the wrong order are swapped, NaN values are kept. *)
Definition is_nan (x : V) : bool := negb (neqb x x).
Definition drop_nan (l : option V) : option V :=
  match l with Some x => if is_nan x then None else Some x | None => None end.
Definition clip_limits (l h : option V) : option V * option V :=
  match drop_nan l, drop_nan h with
  | Some a, Some b => (Some (if nltb b a then b else a), Some (if nltb a b then b else a))
  | a, b => (a, b)
  end.
Definition clip (l h : option V) (x : V) : V :=
  let '(lo, hi) := clip_limits l h in
  let r := match lo with
           | Some a => if is_nan x || nleb a x then x else a
           | None => x
           end in
  match hi with
  | Some b => if is_nan x || nleb x b then r else b
  | None => r
  end.

(** measure, lines 57-98, on the column of values.  [if self._precision:] is false
    for None and 0. *)
Definition measure (i : instm V) (vals : list V) : M (list V) :=
  (v1 <- (match in_err i with
          | Some e => es <- sample e (length vals) ;; ret (zip_add vals es)
          | None => ret vals
          end) ;;
   v2 <- lift (match in_prec i with
               | Some p => if Z.eqb p 0 then Ok v1 else map_res (round_sig p) v1
               | None => Ok v1
               end) ;;
   ret (match in_range i with Some (l, h) => map (clip l h) v2 | None => v2 end))%m.
End Instm.

(** ** PhysTestEnv *)

(** The instance attributes that can be set by __init__ (besides [name]). *)
Inductive attr (V : Type) := AVar (e : emdl V) | AInst (i : instm V).
Arguments AVar {V} _. Arguments AInst {V} _.
Definition env (V : Type) := dict (attr V).

(** An argument of __init__: None, a dict or a list of objects, given by their
    identities in a table of objects. *)
Inductive reg := RNone | RDict (d : dict nat) | RList (l : list nat).

Section Env.
Context {V : Type} `{NumOps V}.

Definition iset_name (i : instm V) (n : option string) : instm V :=
  Instm n (in_prec i) (in_err i) (in_range i).

(** lines 327-341: with a dict every object is given the name of its key, in order;
    then the objects are listed.  The object table after naming, and the list. *)
Definition reg_objs {O} (setn : O -> option string -> O) (objs : list O) (r : reg) : list O * list nat :=
  match r with
  | RNone => (objs, [])
  | RDict d => (fold_left (fun os kv => upd os (snd kv) (fun o => setn o (Some (fst kv)))) d objs, map snd d)
  | RList l => (objs, l)
  end.

(** lines 343-346: [setattr(self, obj.name + suffix, obj)]; a None name is a
    TypeError *)
Fixpoint set_attrs {O} (name_of : O -> option string) (mk : O -> attr V) (suffix : string)
    (objs : list O) (ids : list nat) (e : env V) : res (env V) :=
  match ids with
  | [] => Ok e
  | i :: r =>
      match nth_error objs i with
      | None => Err Unmodelled          (* not an object of the table *)
      | Some o => match name_of o with
                  | None => Err TypeError
                  | Some n => set_attrs name_of mk suffix objs r (dset e (n ++ suffix) (mk o))
                  end
      end
  end.

(** __init__, lines 315-346 *)
Definition env_init (eobjs : list (emdl V)) (vr : reg) (iobjs : list (instm V)) (ir : reg) : res (env V) :=
  let '(es, eids) := reg_objs eset_name eobjs vr in
  let '(is_, iids) := reg_objs iset_name iobjs ir in
  rbind (set_attrs em_name AVar "_var" es eids []) (fun e =>
         set_attrs in_name AInst "_instm" is_ iids e).

(** What [self.meas_instm(prm)] gives: an instrument, or the bound method
    meas_instm itself (the class attribute found by getattr for prm = 'meas'). *)
Inductive found := FInstm (i : instm V) | FMethod.

(** meas_instm, lines 348-362, including the lookup of the method on the instance:
    an instance attribute 'meas_instm' hides it and is not callable. *)
Definition meas_instm (e : env V) (prm : string) : res found :=
  if dmem e "meas_instm" then Err TypeError
  else match dget e (prm ++ "_instm") with
       | Some (AInst i) => Ok (FInstm i)
       | Some (AVar _) => Err Unmodelled      (* not reachable: '_instm' is never the suffix of a '_var' name *)
       | None => if String.eqb (prm ++ "_instm") "meas_instm" then Ok FMethod
                 else Ok (FInstm (Instm (Some prm) None None None))
       end.

(** vrtn_mdl, lines 364-378; default EnvVrtnMdl() *)
Definition vrtn_mdl (e : env V) (prm : string) : res (emdl V) :=
  match dget e (prm ++ "_var") with
  | Some (AVar m) => Ok m
  | Some (AInst _) => Err Unmodelled          (* not reachable *)
  | None => emdl_init None None None "offset" None
  end.

Context `{Rng V} `{HashOrd}.

(** [env.meas_instm(prm).measure(vals)] *)
Definition measure_with (e : env V) (prm : string) (vals : list V) : M (list V) :=
  (f <- lift (meas_instm e prm) ;;
   match f with
   | FInstm i => measure i vals
   | FMethod => raise AttributeError
   end)%m.

(** The [prms] argument: a list, or a dictionary of sample counts. *)
Inductive prms_arg := PList (l : list string) | PCounts (d : dict nat).

(** The part of the report that is read: number of chips and lots, counts. *)
Record tinfo := TInfo { ti_chps : nat; ti_lots : nat; ti_counts : dict nat }.

(** gen_env_cond_vals, lines 380-457 *)
Definition gen_chip_conds (e : env V) (C L : nat) (base : dict V)
  : M (dict (nd V) * dict (nd V)) :=
  foldM (fun (acc : dict (nd V) * dict (nd V)) (kv : string * V) =>
           (m <- lift (vrtn_mdl e (fst kv)) ;;
            b <- gen_batch m (snd kv) ;;
            c <- gen_chp m b C L ;;
            ret (dset (fst acc) (fst kv) b, dset (snd acc) (fst kv) c))%m) base ([], []).

Definition gen_prm_conds (e : env V) (chip : dict (nd V)) (counts : dict nat) (prm : string) (conds : list string)
  : M (dict (pyval V)) :=
  foldM (fun acc cond =>
           (m <- lift (vrtn_mdl e cond) ;;
            c <- lift (dgetE chip cond) ;;
            n <- lift (dgetE counts prm) ;;
            a <- gen_dev m c n ;;
            ret (dset acc cond (PArr a)))%m) conds [].

Definition gen_sensor_conds (e : env V) (batch : dict (nd V)) (counts : dict nat) (prm : string)
  : M (dict (pyval V)) :=
  (m <- lift (vrtn_mdl e prm) ;;
   b <- lift (dgetE batch prm) ;;
   n <- lift (dgetE counts prm) ;;
   s <- gen_chp m b n 1 ;;
   a <- gen_dev m s 1 ;;
   ret [(prm, PArr a)])%m.

Definition gen_env_cond_vals (e : env V) (base : dict V) (prms : prms_arg) (info : option tinfo)
    (dev : option (device V)) (stress : bool) (num_chps num_lots : nat) : M (dict (dict (pyval V))) :=
  let C := match info with Some i => ti_chps i | None => num_chps end in
  let L := match info with Some i => ti_lots i | None => num_lots end in
  (bc <- gen_chip_conds e C L base ;;
   pc <- (match prms with
          | PCounts d => ret (dkeys d, d)
          | PList l => match info with
                       | None => raise UserConfigError
                       | Some i => ret (l, ti_counts i)
                       end
          end) ;;
   foldM (fun acc prm =>
            (v <- (match (match dev with Some d => dget d prm | None => None end) with
                   | Some q => gen_prm_conds e (snd bc) (snd pc) prm (dependencies q (dkeys base) stress)
                   | None => gen_sensor_conds e (fst bc) (snd pc) prm
                   end) ;;
             ret (dset acc prm v))%m) (fst pc) [])%m.
End Env.
Arguments found : clear implicits.
