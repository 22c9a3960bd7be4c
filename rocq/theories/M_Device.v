(** Device models (gerabaldi/models/devices.py lines 256-1321), the per-sample
    fallback (gerabaldi/helpers.py lines 151-192) and the simulation state
    (gerabaldi/models/states.py lines 14-60). *)
From Coq Require Import QArith.
From Verif Require Export M_Base M_Num M_Nd M_RandVar M_Latent M_Time M_Minimize.
Open Scope nat_scope.

(** Iteration order of a Python set of strings, line 1119 ([*set(...)]): it depends
    on the hash seed of the process, so it is an arbitrary function that lists
    every element once. *)
Class HashOrd := {
  hord : list string -> list string;
  hord_ok : forall l, NoDup (hord l) /\ (forall x, In x (hord l) <-> In x l)
}.

(** A Python function used as an equation, as [inspect.signature] and keyword
    calls see it: required parameters, parameters with a default, and the name of
    a ** parameter.  Positional-only and * parameters are not modelled.  The body
    may draw random numbers and raise; it does not mutate its arguments. *)
Record eqn (V : Type) := Eqn {
  e_req : list string; e_opt : list string; e_kw : option string;
  e_body : dict (pyval V) -> M (pyval V) }.
Arguments Eqn {V} _ _ _ _.
Arguments e_req {V} _. Arguments e_opt {V} _. Arguments e_kw {V} _. Arguments e_body {V} _ _.

Section Eqn.
Context {V : Type} `{NumOps V}.

(** self.compute_args, line 275 *)
Definition compute_args (f : eqn V) : list string :=
  e_req f ++ e_opt f ++ match e_kw f with Some k => [k] | None => [] end.

(** f( **args): TypeError for a missing or an unexpected keyword argument. *)
Definition call (f : eqn V) (args : dict (pyval V)) : M (pyval V) :=
  if forallb (dmem args) (e_req f) &&
     match e_kw f with
     | Some _ => true
     | None => forallb (fun k => smem k (e_req f ++ e_opt f)) (dkeys args)
     end
  then e_body f args
  else raise TypeError.

(** _get_single_index, helpers.py lines 151-181: what becomes of one value; [None]:
    the key is dropped (a scalar of another type).  Lists and tuples are not
    modelled. *)
Fixpoint single_val (i j k : nat) (p : pyval V) {struct p} : res (option (pyval V)) :=
  match p with
  | PDict d =>
      rbind ((fix go (d : list (string * pyval V)) : res (list (string * pyval V)) :=
                match d with
                | [] => Ok []
                | (key, v) :: r =>
                    rbind (single_val i j k v) (fun o =>
                    rbind (go r) (fun r' =>
                    Ok (match o with Some x => (key, x) :: r' | None => r' end)))
                end) d) (fun d' => Ok (Some (PDict d')))
  | PArr a =>
      rbind (nsub1 a i) (fun b => rbind (nsub1 b j) (fun c => rbind (nsub1 c k) (fun e =>
        Ok (Some (of_nd e)))))
  | PNum v => Ok (Some (PNum v))
  | POth _ => Ok None
  end.

Fixpoint single_index (i j k : nat) (d : dict (pyval V)) : res (dict (pyval V)) :=
  match d with
  | [] => Ok []
  | (key, v) :: r =>
      rbind (single_val i j k v) (fun o =>
      rbind (single_index i j k r) (fun r' =>
      Ok (match o with Some x => (key, x) :: r' | None => r' end)))
  end.

(** Assignment of a value to one element of a float array. *)
Definition to_scalar (p : pyval V) : res V :=
  match p with
  | PNum v | POth v => Ok v
  | PArr a => match ndata a with [v] => Ok v | _ => Err ValueError end
  | PDict _ => Err TypeError
  end.

(** _loop_compute, helpers.py lines 184-192; dims = (lots, chips, devices) *)
Definition loop_elem (f : eqn V) (args : dict (pyval V)) (idx : list nat) : M V :=
  match idx with
  | [i; j; k] =>
      (a <- lift (single_index i j k args) ;; v <- call f a ;; lift (to_scalar v))%m
  | _ => raise Unmodelled   (* unreachable: indices of a 3D shape *)
  end.
Definition loop_compute (f : eqn V) (args : dict (pyval V)) (L C D : nat) : M (pyval V) :=
  (xs <- mapM (loop_elem f args) (indices [L; C; D]) ;; ret (PArr (Nd [L; C; D] xs)))%m.

(** [try: f( **args) except ValueError: _loop_compute(f, args, dims)] *)
Definition call_or_loop (f : eqn V) (args : dict (pyval V)) (L C D : nat) : M (pyval V) :=
  try_value_error (call f args) (loop_compute f args L C D).

(** The recurring argument loop (lines 445-449, 535-539, 721-725, 1176-1182): for
    each name of the signature the first source that has it. *)
Fixpoint gather (args : list string) (sources : list (dict (pyval V))) (acc : dict (pyval V)) : dict (pyval V) :=
  match args with
  | [] => acc
  | x :: r =>
      let found := (fix look (s : list (dict (pyval V))) : option (pyval V) :=
                      match s with
                      | [] => None
                      | d :: s' => match dget d x with Some v => Some v | None => look s' end
                      end) sources in
      gather r sources (match found with Some v => dset acc x v | None => acc end)
  end.
End Eqn.

(** Amount of time in a unit as a number: total_seconds() / factor, helpers.py
    lines 122-123. *)
Definition td_num {V} `{NumOps V} (u : tunit) (us : Z) : V :=
  ndiv (nofQ (us # 1000000)) (nofQ (sec_factor u)).

(** ** Model objects *)

(** LatentMdl, lines 256-356: an equation and named latent variables. *)
Record lmdl (V : Type) := LMdl { lm_eqn : eqn V; lm_vars : dict (lvar V) }.
Arguments LMdl {V} _ _. Arguments lm_eqn {V} _. Arguments lm_vars {V} _.

Inductive mkind := KDeg | KFail.

(** DegMechMdl / FailMechMdl, lines 359-657; the time unit is the one the object
    has when used (see [propagate] below). *)
Record mech (V : Type) := Mech {
  mc_kind : mkind; mc_mdl : lmdl V; mc_unitary : V; mc_unit : option string }.
Arguments Mech {V} _ _ _ _.
Arguments mc_kind {V} _. Arguments mc_mdl {V} _. Arguments mc_unitary {V} _. Arguments mc_unit {V} _.

(** DegPrmMdl, lines 793-1119: initial value model, conditional shift model (with
    its unitary value), mechanisms by name in order, own equation and latents.
    Attribute names colliding across the two private prefixes (a mechanism
    'latent_x' and a latent variable 'x_mdl') are not modelled. *)
Record degprm (V : Type) := DegPrm {
  dp_init : lmdl V; dp_cond : lmdl V; dp_cunit : V; dp_mechs : dict (mech V); dp_own : lmdl V }.
Arguments DegPrm {V} _ _ _ _ _.
Arguments dp_init {V} _. Arguments dp_cond {V} _. Arguments dp_cunit {V} _.
Arguments dp_mechs {V} _. Arguments dp_own {V} _.

(** A device parameter: DegPrmMdl or CircPrmMdl (lines 1122-1221). *)
Inductive prm (V : Type) := PDeg (p : degprm V) | PCirc (c : lmdl V).
Arguments PDeg {V} _. Arguments PCirc {V} _.

(** DeviceMdl, lines 1224-1321: parameters by name in order. *)
Definition device (V : Type) := dict (prm V).

(** SimState, states.py lines 33-60 *)
Record simstate (V : Type) := SimState {
  st_elapsed : tval;
  st_prm : dict (pyval V);
  st_prm0 : dict (pyval V);
  st_mech : dict (dict (pyval V));
  st_mech0 : dict (dict (pyval V));
  st_lat : dict (dict (pyval V)) }.
Arguments SimState {V} _ _ _ _ _ _.
Arguments st_elapsed {V} _. Arguments st_prm {V} _. Arguments st_prm0 {V} _.
Arguments st_mech {V} _. Arguments st_mech0 {V} _. Arguments st_lat {V} _.

Section Device.
Context {V : Type} `{NumOps V}.

(** Default equations: no_wear_out / no_cond_shift (lines 375-377, 687-689), basic
    (763-765), basic_sum (862-864: init + cond + sum(mechs.values()), the sum
    starting at the integer 0 in the order of the keyword arguments). *)
Definition eqn_const (v : V) : eqn V := Eqn [] [] None (fun _ => ret (PNum v)).
Definition eqn_basic : eqn V :=
  Eqn ["init_val"%string] [] None (fun a => lift (dgetE a "init_val")).
Fixpoint psum (acc : pyval V) (l : list (pyval V)) : res (pyval V) :=
  match l with
  | [] => Ok acc
  | x :: r => rbind (pmap2 nadd acc x) (fun s => psum s r)
  end.
Definition eqn_basic_sum : eqn V :=
  Eqn ["init"; "cond"]%string [] (Some "mechs"%string)
    (fun a => lift (
       rbind (dgetE a "init") (fun i => rbind (dgetE a "cond") (fun c =>
       rbind (pmap2 nadd i c) (fun ic =>
       rbind (psum (PNum n0)
                (map snd (filter (fun kv => negb (String.eqb (fst kv) "init" || String.eqb (fst kv) "cond")) a)))
             (fun s => pmap2 nadd ic s)))))).

(** MechMdl.gen_init_vals, lines 383-404 *)
Definition mech_init_vals (m : mech V) (D C L : nat) : pyval V := PArr (nfull [L; C; D] (mc_unitary m)).

(** MechMdl.calc_deg_vals, lines 417-463.  The comparison [times > 9e9] and the
    final selection are elementwise; np.where always gives an array.  A stored value
    of +inf is not protected by the mask (line 460 tests for np.inf).
    The shapes of times and previous values must broadcast before the equation is
    called. *)
Definition deg_limit : V := nofQ 9000000000.
Definition keep_or (t p d : V) : V := if nltb deg_limit t && negb (nposinf p) then p else d.
Definition mech_args (m : mech V) (times : pyval V) (conds lats : dict (pyval V)) : dict (pyval V) :=
  gather (compute_args (lm_eqn (mc_mdl m))) [lats; conds] [("time"%string, times)].
Definition base_deg_vals (m : mech V) (times pre : pyval V) (conds lats : dict (pyval V)) (L C D : nat)
  : M (pyval V) :=
  (t <- lift (to_nd times) ;;
   p <- lift (to_nd pre) ;;
   match bshape (nshape t) (nshape p) with
   | None => raise ValueError
   | Some _ =>
       d <- call_or_loop (lm_eqn (mc_mdl m)) (mech_args m times conds lats) L C D ;;
       e <- lift (to_nd d) ;;
       r <- lift (bmap3 keep_or t p e) ;;
       ret (PArr r)
   end)%m.

(** FailMechMdl.calc_deg_vals, lines 627-657, otherwise the inherited method *)
Definition mech_deg_vals (m : mech V) (times pre : pyval V) (conds lats : dict (pyval V)) (L C D : nat)
  : M (pyval V) :=
  match mc_kind m with
  | KDeg => base_deg_vals m times pre conds lats L C D
  | KFail =>
      (p <- lift (to_nd pre) ;;
       s <- base_deg_vals m times pre conds lats L C D ;;
       e <- lift (to_nd s) ;;
       r <- lift (bmap2 (fun x y => if neqb x (mc_unitary m) then y else x) p e) ;;
       ret (PArr r))%m
  end.

(** The residue of calc_equiv_strs_time, lines 533-544: the broadcast of the
    difference is inside the try block. *)
Definition residue (m : mech V) (curr : pyval V) (conds lats : dict (pyval V)) (L C D : nat) (time : pyval V)
  : M (pyval V) :=
  let args := mech_args m time conds lats in
  let diff (d : pyval V) := lift (pmap2 (fun x y => nabs (nsub x y)) curr d) in
  try_value_error (d <- call (lm_eqn (mc_mdl m)) args ;; diff d)%m
                  (d <- loop_compute (lm_eqn (mc_mdl m)) args L C D ;; diff d)%m.

(** What minimize is given, line 548: the residue as a function of the array of
    times, over the elements of deg_val ([a] its array form); a residue of another
    shape is not modelled. *)
Definition equiv_obj (m : mech V) (deg : pyval V) (a : nd V) (conds lats : dict (pyval V)) (L C D : nat)
    (ts : list V) : M (list V) :=
  (r <- residue m deg conds lats L C D (of_nd (Nd (nshape a) ts)) ;;
   b <- lift (to_nd r) ;;
   if list_eq_dec Nat.eq_dec (nshape b) (nshape a) then ret (ndata b) else raise Unmodelled)%m.

(** calc_equiv_strs_time: DegMechMdl lines 508-552, FailMechMdl lines 595-625 *)
Definition mech_equiv_time (m : mech V) (deg : pyval V) (conds lats : dict (pyval V)) (L C D : nat)
  : M (pyval V) :=
  match mc_kind m with
  | KFail => match deg with
             | PArr a => ret (PArr (nfull (nshape a) n0))
             | _ => ret (PNum n0)
             end
  | KDeg =>
      (a <- lift (to_nd deg) ;;
       xs <- minimize (equiv_obj m deg a conds lats L C D) (length (ndata a)) (nofQ (1 # 1000)) (nofQ 10000000000)
               default_precision mach_64bit_eps 50 true ;;
       ret (of_nd (Nd (nshape a) xs)))%m
  end.

(** CondShiftMdl.calc_cond_vals, lines 699-730 *)
Definition calc_cond_vals (c : lmdl V) (conds lats : dict (pyval V)) (L C D : nat) : M (pyval V) :=
  call_or_loop (lm_eqn c) (gather (compute_args (lm_eqn c)) [lats; conds] []) L C D.

(** A value that must be a dictionary (latents[mech]); other objects are not
    modelled there. *)
Definition as_dict (p : pyval V) : res (dict (pyval V)) :=
  match p with PDict d => Ok d | _ => Err Unmodelled end.

(** ** DegPrmMdl *)

(** calc_equiv_strs_times, lines 955-991 *)
Definition prm_equiv_times (p : degprm V) (mvals conds minit lats : dict (pyval V)) (L C D : nat)
  : M (dict (pyval V)) :=
  foldM (fun acc (nm : string * mech V) =>
           (v <- lift (dgetE mvals (fst nm)) ;;
            lift (dgetE minit (fst nm)) ;;;
            l <- lift (rbind (dgetE lats (fst nm)) as_dict) ;;
            t <- mech_equiv_time (snd nm) v conds l L C D ;;
            ret (dset acc (fst nm) t))%m) (dp_mechs p) [].

(** lines 1030-1033 and 1081-1084: the parameter's own latents, for names of the
    signature not set yet *)
Fixpoint add_own (args : list string) (lats acc : dict (pyval V)) : dict (pyval V) :=
  match args with
  | [] => acc
  | x :: r =>
      add_own r lats (if dmem acc x then acc
                      else match dget lats x with Some v => dset acc x v | None => acc end)
  end.

(** calc_deg_vals, lines 993-1044 *)
Definition prm_deg_vals (p : degprm V) (times conds : dict (pyval V)) (init : pyval V)
    (lats mvals : dict (pyval V)) (L C D : nat) : M (pyval V * dict (pyval V)) :=
  (st <- foldM (fun (acc : dict (pyval V) * dict (pyval V)) (nm : string * mech V) =>
           (t <- lift (dgetE times (fst nm)) ;;
            v <- lift (dgetE mvals (fst nm)) ;;
            l <- lift (rbind (dgetE lats (fst nm)) as_dict) ;;
            x <- mech_deg_vals (snd nm) t v conds l L C D ;;
            ret (dset (fst acc) (fst nm) x, dset (snd acc) (fst nm) x))%m)
         (dp_mechs p) ([("init"%string, init); ("cond"%string, PNum (dp_cunit p))], []) ;;
   let args := add_own (compute_args (lm_eqn (dp_own p))) lats (fst st) in
   x <- call_or_loop (lm_eqn (dp_own p)) args L C D ;;
   ret (x, snd st))%m.

(** _reduce_dev_dim_size, lines 946-953: values that are neither arrays nor
    dictionaries are dropped *)
Fixpoint reduce_val (k : nat) (p : pyval V) {struct p} : res (option (pyval V)) :=
  match p with
  | PDict d =>
      rbind ((fix go (d : list (string * pyval V)) : res (list (string * pyval V)) :=
                match d with
                | [] => Ok []
                | (key, v) :: r =>
                    rbind (reduce_val k v) (fun o =>
                    rbind (go r) (fun r' =>
                    Ok (match o with Some x => (key, x) :: r' | None => r' end)))
                end) d) (fun d' => Ok (Some (PDict d')))
  | PArr a => rbind (nslice_third k a) (fun b => Ok (Some (PArr b)))
  | PNum _ | POth _ => Ok None
  end.

Fixpoint reduce_dims (k : nat) (d : dict (pyval V)) : res (dict (pyval V)) :=
  match d with
  | [] => Ok []
  | (key, v) :: r =>
      rbind (reduce_val k v) (fun o =>
      rbind (reduce_dims k r) (fun r' =>
      Ok (match o with Some x => (key, x) :: r' | None => r' end)))
  end.

(** deg_vals.shape[2] *)
Definition third_dim (p : pyval V) : res nat :=
  match p with
  | PArr a => match nth_error (nshape a) 2 with Some n => Ok n | None => Err IndexError end
  | PDict _ => Err AttributeError
  | PNum _ | POth _ => Err Unmodelled   (* AttributeError or IndexError depending on the type *)
  end.

(** calc_cond_shifted_vals, lines 1046-1092; meas_dims = (L, C, K) *)
Definition cond_shifted (p : degprm V) (conds : dict (pyval V)) (deg : pyval V) (lats : dict (pyval V))
    (L C K : nat) : M (pyval V) :=
  (n <- lift (third_dim deg) ;;
   let args0 := [("init"%string, deg); ("cond"%string, PDict [])] in
   al <- lift (if K <? n
               then rbind (reduce_dims K args0) (fun a => rbind (reduce_dims K lats) (fun l => Ok (a, l)))
               else Ok (args0, lats)) ;;
   let args1 := fst al in
   let lats1 := snd al in
   cl <- lift (rbind (dgetE lats1 "cond") as_dict) ;;
   cv <- calc_cond_vals (dp_cond p) conds cl L C K ;;
   let args2 := dset args1 "cond" cv in
   let args3 := fold_left (fun acc (nm : string * mech V) => dset acc (fst nm) (PNum (mc_unitary (snd nm))))
                          (dp_mechs p) args2 in
   let args4 := add_own (compute_args (lm_eqn (dp_own p))) lats1 args3 in
   call_or_loop (lm_eqn (dp_own p)) args4 L C K)%m.

(** get_dependencies, lines 1094-1119 and 1203-1221; [stress]: target == 'stress' *)
Definition deg_dependencies `{HashOrd} (p : degprm V) (conds : list string) (stress : bool) : list string :=
  let used (f : eqn V) := filter (fun a => smem a conds) (compute_args f) in
  hord (used (lm_eqn (dp_own p)) ++
        if stress then flat_map (fun nm => used (lm_eqn (mc_mdl (snd nm)))) (dp_mechs p)
        else used (lm_eqn (dp_cond p))).
Definition dependencies `{HashOrd} (q : prm V) (conds : list string) (stress : bool) : list string :=
  match q with
  | PDeg p => deg_dependencies p conds stress
  | PCirc c => filter (fun a => smem a conds) (compute_args (lm_eqn c))
  end.

(** ** CircPrmMdl *)

(** calc_circ_vals, lines 1155-1184: [x[:][:][:k]] slices the first axis; no
    fallback.  Slicing a scalar raises (which exception depends on its type). *)
Definition circ_vals (c : lmdl V) (k : nat) (conds prms lats : dict (pyval V)) : M (pyval V) :=
  (x <- call (lm_eqn c) (gather (compute_args (lm_eqn c)) [lats; conds; prms] []) ;;
   match x with
   | PArr a => lift (rbind (nslice_first k a) (fun b => Ok (PArr b)))
   | PDict _ => raise TypeError
   | PNum _ | POth _ => raise Unmodelled
   end)%m.

(** get_required_prms, lines 1186-1201 *)
Definition required_prms (c : lmdl V) (names : list string) : list string :=
  filter (fun x => smem x (compute_args (lm_eqn c))) names.

(** ** Sampling and initial values *)
Context `{Rng V}.

(** LatentMdl.gen_latent_vals, lines 303-328 *)
Definition gen_latents (m : lmdl V) (D C L : nat) : M (dict (pyval V)) :=
  foldM (fun acc (kv : string * lvar V) =>
           (a <- gen_latent (snd kv) D C L ;; ret (dset acc (fst kv) (PArr a)))%m) (lm_vars m) [].

(** InitValMdl.gen_init_vals, lines 769-790 *)
Definition gen_init_vals (m : lmdl V) (D C L : nat) : M (pyval V) :=
  (l <- gen_latents m D C L ;; call (lm_eqn m) l)%m.

(** DegPrmMdl.gen_latent_vals, lines 895-921 *)
Definition prm_latents (p : degprm V) (D C L : nat) : M (dict (pyval V)) :=
  (c <- gen_latents (dp_cond p) D C L ;;
   l <- foldM (fun acc (nm : string * mech V) =>
                 (x <- gen_latents (mc_mdl (snd nm)) D C L ;; ret (dset acc (fst nm) (PDict x)))%m)
              (dp_mechs p) [("cond"%string, PDict c)] ;;
   own <- gen_latents (dp_own p) D C L ;;
   ret (dupdate l own))%m.

(** DegPrmMdl.gen_init_mech_vals, lines 923-944 *)
Definition prm_init_mech (p : degprm V) (D C L : nat) : dict (pyval V) :=
  fold_left (fun acc (nm : string * mech V) => dset acc (fst nm) (mech_init_vals (snd nm) D C L))
            (dp_mechs p) [].

(** max(sample_counts.values()); ValueError on an empty dictionary *)
Definition max_count (c : dict nat) : res nat :=
  match c with [] => Err ValueError | (_, n) :: r => Ok (fold_left Nat.max (map snd r) n) end.

(** DeviceMdl.gen_init_state, lines 1288-1321: the state and the (mutated) sample
    counts.  Lines 1315-1316 are dead code: the lookup above has already raised. *)
Record gstate := GState { g_counts : dict nat; g_lat : dict (dict (pyval V));
                          g_mech : dict (dict (pyval V)); g_prm : dict (pyval V) }.
Definition gen_prm_state (C L : nat) (g : gstate) (kv : string * prm V) : M gstate :=
  let name := fst kv in
  (n <- lift (dgetE (g_counts g) name) ;;
   lats <- (match snd kv with PDeg p => prm_latents p n C L | PCirc c => gen_latents c n C L end) ;;
   let mechs := match snd kv with
                | PDeg p => dset (g_mech g) name (prm_init_mech p n C L)
                | PCirc _ => g_mech g
                end in
   counts <- lift (if dmem (g_counts g) name then Ok (g_counts g)
                   else rbind (max_count (g_counts g)) (fun m => Ok (dset (g_counts g) name m))) ;;
   prms <- (match snd kv with
            | PDeg p => (n' <- lift (dgetE counts name) ;;
                         v <- gen_init_vals (dp_init p) n' C L ;;
                         ret (dset (g_prm g) name v))%m
            | PCirc _ => ret (g_prm g)
            end) ;;
   ret (GState counts (dset (g_lat g) name lats) mechs prms))%m.

Definition dev_init_state (d : device V) (counts : dict nat) (C L : nat)
  : M (simstate V * dict nat) :=
  (g <- foldM (gen_prm_state C L) d (GState counts [] [] []) ;;
   ret (SimState (TD 0) (g_prm g) (g_prm g) (g_mech g) (g_mech g) (g_lat g), g_counts g))%m.
End Device.
Arguments gstate : clear implicits.

(** ** Time units (lines 406-412, 874-878, 1265-1271) with object identity *)

(** Mechanism objects are cells holding their time unit; a degraded parameter has
    its own unit and references to its mechanisms in order; a circuit parameter
    has none and is not visited. *)
Record tu_prm := TuPrm { tp_deg : bool; tp_unit : option string; tp_mechs : list nat }.

(** set_time_unit, lines 409-415 *)
Definition set_time_unit (own given : option string) : option string :=
  match own with
  | None => match given with None => Some "h"%string | Some u => Some u end
  | Some u => Some u
  end.

Fixpoint upd {A} (l : list A) (i : nat) (f : A -> A) : list A :=
  match l, i with
  | [], _ => []
  | x :: r, O => f x :: r
  | x :: r, S j => x :: upd r j f
  end.

(** DegPrmMdl.propagate_time_unit: [self.time_unit if self.time_unit else dev]; the
    empty string counts as no unit *)
Definition or_unit (own dev : option string) : option string :=
  match own with Some ""%string | None => dev | Some u => Some u end.
Definition prm_propagate (dev : option string) (h : list (option string)) (p : tu_prm) : list (option string) :=
  if tp_deg p
  then fold_left (fun h m => upd h m (fun own => set_time_unit own (or_unit (tp_unit p) dev))) (tp_mechs p) h
  else h.

(** DeviceMdl.propagate_time_unit *)
Definition dev_propagate (dev : option string) (ps : list tu_prm) (h : list (option string)) : list (option string) :=
  fold_left (prm_propagate dev) ps h.
