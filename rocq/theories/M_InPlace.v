(** The steps of a simulation with arrays as objects (gerabaldi/sim.py lines 89-236,
    gerabaldi/models/devices.py): an equation may write into the arrays it is given,
    and the library passes it those of the simulation state, not copies.

    M_Device.v and M_Sim.v treat arrays as values.  Here an array is a cell of a heap
    and the state holds references.  Dictionaries and numbers are still values: no
    equation can replace an entry of a dictionary of the library.  Equations used
    only to generate the initial state (InitValMdl) stay as they are: the arrays they
    are given are not kept (devices.py lines 781-790). *)
From Verif Require Export M_Base M_Num M_Nd M_Time M_TestSpec M_Device M_Report M_Env M_Minimize M_Sim.
Open Scope nat_scope.

(** A value: a number, an array (a cell of the heap, seen through the slices
    [:, :, :k] taken of it, line 950, which numpy makes as views), or a dictionary. *)
Inductive oval (V : Type) :=
| ONum (v : V)
| OOth (v : V)
| OArr (a : nat) (ks : list nat)
| ODict (d : list (string * oval V)).
Arguments ONum {V} _. Arguments OOth {V} _. Arguments OArr {V} _ _. Arguments ODict {V} _.

Definition heap (V : Type) := list (nd V).
(** Computations that use the heap as well as the random generators. *)
Definition HM (V A : Type) := heap V -> world -> res A * heap V * world.

Section Heap.
Context {V : Type} `{NumOps V}.

Definition hret {A} (a : A) : HM V A := fun h w => (Ok a, h, w).
Definition hraise {A} (e : exn) : HM V A := fun h w => (Err e, h, w).
Definition hbind {A B} (m : HM V A) (f : A -> HM V B) : HM V B :=
  fun h w => match m h w with (Ok a, h', w') => f a h' w' | (Err e, h', w') => (Err e, h', w') end.
Definition hlift {A} (r : res A) : HM V A := fun h w => (r, h, w).
(** A part of the library that uses no array of the heap. *)
Definition hpure {A} (m : M A) : HM V A := fun h w => let (r, w') := m w in (r, h, w').
(** [try: m except ValueError: k]; what [m] wrote stays written. *)
Definition htry {A} (m k : HM V A) : HM V A :=
  fun h w => match m h w with (Err ValueError, h', w') => k h' w' | r => r end.
End Heap.
Declare Scope h_scope. Delimit Scope h_scope with h.
Notation "x <- a ;; b" := (hbind a (fun x => b)) (at level 61, a at next level, right associativity) : h_scope.

Section InPlace.
Context {V : Type} `{NumOps V}.
Open Scope h_scope.

Fixpoint hmapM {A B} (f : A -> HM V B) (l : list A) : HM V (list B) :=
  match l with
  | [] => hret []
  | x :: r => y <- f x ;; ys <- hmapM f r ;; hret (y :: ys)
  end.
Fixpoint hfoldM {A T} (f : T -> A -> HM V T) (l : list A) (s : T) : HM V T :=
  match l with
  | [] => hret s
  | x :: r => s' <- f s x ;; hfoldM f r s'
  end.

(** ** Reading and making arrays *)
Fixpoint slices (ks : list nat) (a : nd V) : res (nd V) :=
  match ks with [] => Ok a | k :: r => rbind (nslice_third k a) (slices r) end.
Definition look (h : heap V) (a : nat) (ks : list nat) : res (pyval V) :=
  match nth_error h a with
  | Some x => rbind (slices ks x) (fun b => Ok (PArr b))
  | None => Err Unmodelled      (* unreachable: references are to existing cells *)
  end.

(** What a value shows at the moment. *)
Fixpoint peek (h : heap V) (o : oval V) {struct o} : res (pyval V) :=
  match o with
  | ONum v => Ok (PNum v)
  | OOth v => Ok (POth v)
  | OArr a ks => look h a ks
  | ODict d =>
      rbind ((fix go (d : list (string * oval V)) : res (list (string * pyval V)) :=
                match d with
                | [] => Ok []
                | (k, v) :: r => rbind (peek h v) (fun x => rbind (go r) (fun r' => Ok ((k, x) :: r')))
                end) d) (fun d' => Ok (PDict d'))
  end.
Fixpoint peekd (h : heap V) (d : dict (oval V)) : res (dict (pyval V)) :=
  match d with
  | [] => Ok []
  | (k, v) :: r => rbind (peek h v) (fun x => rbind (peekd h r) (fun r' => Ok ((k, x) :: r')))
  end.

(** Making new arrays for a value. *)
Fixpoint put (h : heap V) (p : pyval V) {struct p} : oval V * heap V :=
  match p with
  | PNum v => (ONum v, h)
  | POth v => (OOth v, h)
  | PArr a => (OArr (length h) [], h ++ [a])
  | PDict d =>
      let '(d', h') := (fix go (h : heap V) (d : list (string * pyval V)) : list (string * oval V) * heap V :=
                match d with
                | [] => ([], h)
                | (k, v) :: r => let '(x, h1) := put h v in let '(r', h2) := go h1 r in ((k, x) :: r', h2)
                end) h d in (ODict d', h')
  end.
Fixpoint putd (h : heap V) (d : dict (pyval V)) : dict (oval V) * heap V :=
  match d with
  | [] => ([], h)
  | (k, v) :: r => let '(x, h1) := put h v in let '(r', h2) := putd h1 r in ((k, x) :: r', h2)
  end.
Fixpoint putdd (h : heap V) (d : dict (dict (pyval V))) : dict (dict (oval V)) * heap V :=
  match d with
  | [] => ([], h)
  | (k, v) :: r => let '(x, h1) := putd h v in let '(r', h2) := putdd h1 r in ((k, x) :: r', h2)
  end.

Definition load (o : oval V) : HM V (pyval V) := fun h w => (peek h o, h, w).
Definition loadd (d : dict (oval V)) : HM V (dict (pyval V)) := fun h w => (peekd h d, h, w).
Definition new (p : pyval V) : HM V (oval V) := fun h w => let '(o, h') := put h p in (Ok o, h', w).
Definition newd (d : dict (pyval V)) : HM V (dict (oval V)) := fun h w => let '(o, h') := putd h d in (Ok o, h', w).
Definition newdd (d : dict (dict (pyval V))) : HM V (dict (dict (oval V))) :=
  fun h w => let '(o, h') := putdd h d in (Ok o, h', w).
Fixpoint set_cell (h : heap V) (a : nat) (x : nd V) : heap V :=
  match h, a with
  | [], _ => []
  | _ :: r, O => x :: r
  | y :: r, S b => y :: set_cell r b x
  end.
Definition write (a : nat) (x : nd V) : HM V unit := fun h w => (Ok tt, set_cell h a x, w).

(** ** Calling equations *)

(** An equation as it runs: given its arguments it may read, write and make arrays,
    draw random numbers and raise.  Its signature is that of [f]. *)
Definition impl := dict (oval V) -> HM V (oval V).
Definition hcall (f : eqn V) (b : impl) (args : dict (oval V)) : HM V (oval V) :=
  if forallb (dmem args) (e_req f) &&
     match e_kw f with
     | Some _ => true
     | None => forallb (fun k => smem k (e_req f ++ e_opt f)) (dkeys args)
     end
  then b args
  else hraise TypeError.

(** _loop_compute and _get_single_index, helpers.py lines 151-192: the arguments are
    the elements the arrays have at that moment.  (An element of an array of more than
    three axes is an array, a view in numpy and a copy here.) *)
Definition hloop_elem (f : eqn V) (b : impl) (args : dict (oval V)) (idx : list nat) : HM V V :=
  match idx with
  | [i; j; k] =>
      p <- loadd args ;; a <- hlift (single_index i j k p) ;; oa <- newd a ;;
      v <- hcall f b oa ;; x <- load v ;; hlift (to_scalar x)
  | _ => hraise Unmodelled
  end.
Definition hloop_compute (f : eqn V) (b : impl) (args : dict (oval V)) (L C D : nat) : HM V (oval V) :=
  xs <- hmapM (hloop_elem f b args) (indices [L; C; D]) ;; new (PArr (Nd [L; C; D] xs)).
Definition hcall_or_loop (f : eqn V) (b : impl) (args : dict (oval V)) (L C D : nat) : HM V (oval V) :=
  htry (hcall f b args) (hloop_compute f b args L C D).

(** The argument loops, as in M_Device.v: references are passed on. *)
Fixpoint find_in (x : string) (s : list (dict (oval V))) : option (oval V) :=
  match s with
  | [] => None
  | d :: s' => match dget d x with Some v => Some v | None => find_in x s' end
  end.
Fixpoint hgather (args : list string) (sources : list (dict (oval V))) (acc : dict (oval V)) : dict (oval V) :=
  match args with
  | [] => acc
  | x :: r => hgather r sources (match find_in x sources with Some v => dset acc x v | None => acc end)
  end.
Fixpoint hadd_own (args : list string) (lats acc : dict (oval V)) : dict (oval V) :=
  match args with
  | [] => acc
  | x :: r =>
      hadd_own r lats (if dmem acc x then acc
                       else match dget lats x with Some v => dset acc x v | None => acc end)
  end.
Definition has_dict (o : oval V) : res (dict (oval V)) :=
  match o with ODict d => Ok d | _ => Err Unmodelled end.

(** ** Mechanisms *)

Definition hmech_args (m : mech V) (times : oval V) (conds lats : dict (oval V)) : dict (oval V) :=
  hgather (compute_args (lm_eqn (mc_mdl m))) [lats; conds] [("time"%string, times)].

(** MechMdl.calc_deg_vals, lines 417-463: the mask is made of times and previous values
    before the equation is called; the result is a new array. *)
Definition hbase_deg_vals (m : mech V) (b : impl) (times pre : oval V) (conds lats : dict (oval V)) (L C D : nat)
  : HM V (pyval V) :=
  t <- (x <- load times ;; hlift (to_nd x)) ;;
  p <- (x <- load pre ;; hlift (to_nd x)) ;;
  match bshape (nshape t) (nshape p) with
  | None => hraise ValueError
  | Some _ =>
      d <- hcall_or_loop (lm_eqn (mc_mdl m)) b (hmech_args m times conds lats) L C D ;;
      e <- (x <- load d ;; hlift (to_nd x)) ;;
      r <- hlift (bmap3 keep_or t p e) ;;
      hret (PArr r)
  end.
(** FailMechMdl.calc_deg_vals, lines 627-657.  (The array of previous values is not
    among the arguments of the equation.) *)
Definition hmech_deg_vals (m : mech V) (b : impl) (times pre : oval V) (conds lats : dict (oval V)) (L C D : nat)
  : HM V (oval V) :=
  match mc_kind m with
  | KDeg => r <- hbase_deg_vals m b times pre conds lats L C D ;; new r
  | KFail =>
      p <- (x <- load pre ;; hlift (to_nd x)) ;;
      s <- hbase_deg_vals m b times pre conds lats L C D ;;
      e <- hlift (to_nd s) ;;
      r <- hlift (bmap2 (fun x y => if neqb x (mc_unitary m) then y else x) p e) ;;
      new (PArr r)
  end.

(** residue and calc_equiv_strs_time, lines 508-552: every evaluation is given a new
    array of times and the same arrays of conditions and latent values. *)
Definition hresidue (m : mech V) (b : impl) (curr : oval V) (conds lats : dict (oval V)) (L C D : nat) (time : oval V)
  : HM V (pyval V) :=
  let args := hmech_args m time conds lats in
  let diff (o : oval V) := d <- load o ;; c <- load curr ;; hlift (pmap2 (fun x y => nabs (nsub x y)) c d) in
  htry (o <- hcall (lm_eqn (mc_mdl m)) b args ;; diff o)
       (o <- hloop_compute (lm_eqn (mc_mdl m)) b args L C D ;; diff o).
Definition hequiv_obj (m : mech V) (b : impl) (deg : oval V) (s : list nat) (conds lats : dict (oval V)) (L C D : nat)
    (ts : list V) : HM V (list V) :=
  time <- new (of_nd (Nd s ts)) ;;
  r <- hresidue m b deg conds lats L C D time ;;
  x <- hlift (to_nd r) ;;
  if list_eq_dec Nat.eq_dec (nshape x) s then hret (ndata x) else hraise Unmodelled.

(** minimize, math/minimize.py lines 23-134, as in M_Minimize.v: its own arrays are
    never written to once made. *)
Section Search.
Variables (rel_tol abs_tol : V) (log_gold : bool) (F : list V -> HM V (list V)).
Definition hevalF (xs : list V) : HM V (list V) :=
  fs <- F (map (to_point log_gold) xs) ;; if length fs =? length xs then hret fs else hraise Unmodelled.
Fixpoint hmloop (fuel : nat) (ss : list (mst V)) (evals : list (list V * list V)) : HM V (mres V) :=
  if forallb (converged rel_tol abs_tol) ss then hret (Mres ss true evals)
  else match fuel with
       | O => hret (Mres ss false evals)
       | S k =>
           let us := map (next_u rel_tol abs_tol) ss in
           fus <- hevalF us ;; hmloop k (zip_update rel_tol abs_tol ss fus) (evals ++ [(us, fus)])
       end.
Definition hmrun (n : nat) (a0 b0 : V) (maxiter : nat) : HM V (mres V) :=
  let xs := repeat (nadd a0 (nmul gf2 (nsub b0 a0))) n in
  f0 <- hevalF xs ;; hmloop maxiter (map (minit a0 b0) f0) [(xs, f0)].
End Search.
Definition hminimize (F : list V -> HM V (list V)) (n : nat) (lo hi precision mach_eps : V)
    (maxiter : nat) (log_gold : bool) : HM V (list V) :=
  let lim v := if log_gold then nlog10 v else v in
  r <- hmrun (nsqrt mach_eps) (ndiv precision (nofQ 3)) log_gold F n (lim lo) (lim hi) maxiter ;;
  hret (map (fun s => to_point log_gold (mx s)) (mr_states r)).

(** calc_equiv_strs_time: DegMechMdl lines 508-552, FailMechMdl lines 595-625: always a
    new array *)
Definition hmech_equiv_time (m : mech V) (b : impl) (deg : oval V) (conds lats : dict (oval V)) (L C D : nat)
  : HM V (oval V) :=
  match mc_kind m with
  | KFail => x <- load deg ;; match x with
             | PArr a => new (PArr (nfull (nshape a) n0))
             | _ => hret (ONum n0)
             end
  | KDeg =>
      a <- (x <- load deg ;; hlift (to_nd x)) ;;
      xs <- hminimize (hequiv_obj m b deg (nshape a) conds lats L C D) (length (ndata a)) (nofQ (1 # 1000)) (nofQ 10000000000)
              default_precision mach_64bit_eps 50 true ;;
      new (of_nd (Nd (nshape a) xs))
  end.

(** ** Parameters *)
(** The equations of a device: of a mechanism of a parameter, of a parameter, of its
    conditional part, of a circuit parameter. *)
Inductive role := RMech (prm mech : string) | ROwn (prm : string) | RCond (prm : string) | RCirc (prm : string).
Variable code : role -> impl.

(** calc_equiv_strs_times, lines 955-991 *)
Definition hprm_equiv_times (name : string) (p : degprm V) (mvals conds minit lats : dict (oval V)) (L C D : nat)
  : HM V (dict (oval V)) :=
  hfoldM (fun acc (nm : string * mech V) =>
            v <- hlift (dgetE mvals (fst nm)) ;;
            _ <- hlift (dgetE minit (fst nm)) ;;
            l <- hlift (rbind (dgetE lats (fst nm)) has_dict) ;;
            t <- hmech_equiv_time (snd nm) (code (RMech name (fst nm))) v conds l L C D ;;
            hret (dset acc (fst nm) t)) (dp_mechs p) [].

(** [equiv_times[mech] += c], sim.py lines 103-104: an array is changed in place.  The
    loop visits every key once. *)
Definition iadd (o : oval V) (c : V) : HM V (oval V) :=
  x <- load o ;; r <- hlift (pmap2 nadd x (PNum c)) ;;
  match o, r with
  | OArr a [], PArr y => _ <- write a y ;; hret o
  | _, _ => new r
  end.
Fixpoint hadd_durations (p : degprm V) (dur : Z) (times : dict (oval V)) : HM V (dict (oval V)) :=
  match times with
  | [] => hret []
  | (k, o) :: r =>
      m <- hlift (dgetE (dp_mechs p) k) ;;
      match unit_map (mc_unit m) with
      | None => hraise UserConfigError
      | Some u => o' <- iadd o (td_num u dur) ;; r' <- hadd_durations p dur r ;; hret ((k, o') :: r')
      end
  end.

(** calc_deg_vals, lines 993-1044 *)
Definition hprm_deg_vals (name : string) (p : degprm V) (times conds : dict (oval V)) (init : oval V)
    (lats mvals : dict (oval V)) (L C D : nat) : HM V (oval V * dict (oval V)) :=
  st <- hfoldM (fun (acc : dict (oval V) * dict (oval V)) (nm : string * mech V) =>
            t <- hlift (dgetE times (fst nm)) ;;
            v <- hlift (dgetE mvals (fst nm)) ;;
            l <- hlift (rbind (dgetE lats (fst nm)) has_dict) ;;
            x <- hmech_deg_vals (snd nm) (code (RMech name (fst nm))) t v conds l L C D ;;
            hret (dset (fst acc) (fst nm) x, dset (snd acc) (fst nm) x))
         (dp_mechs p) ([("init"%string, init); ("cond"%string, ONum (dp_cunit p))], []) ;;
  let args := hadd_own (compute_args (lm_eqn (dp_own p))) lats (fst st) in
  x <- hcall_or_loop (lm_eqn (dp_own p)) (code (ROwn name)) args L C D ;;
  hret (x, snd st).

(** _reduce_dev_dim_size, lines 946-953: the slices are views *)
Fixpoint hreduce_val (h : heap V) (k : nat) (o : oval V) {struct o} : res (option (oval V)) :=
  match o with
  | ODict d =>
      rbind ((fix go (d : list (string * oval V)) : res (list (string * oval V)) :=
                match d with
                | [] => Ok []
                | (key, v) :: r =>
                    rbind (hreduce_val h k v) (fun x =>
                    rbind (go r) (fun r' =>
                    Ok (match x with Some x => (key, x) :: r' | None => r' end)))
                end) d) (fun d' => Ok (Some (ODict d')))
  | OArr a ks => rbind (look h a (ks ++ [k])) (fun _ => Ok (Some (OArr a (ks ++ [k]))))
  | ONum _ | OOth _ => Ok None
  end.
Fixpoint hreduce_dims (h : heap V) (k : nat) (d : dict (oval V)) : res (dict (oval V)) :=
  match d with
  | [] => Ok []
  | (key, v) :: r =>
      rbind (hreduce_val h k v) (fun x =>
      rbind (hreduce_dims h k r) (fun r' =>
      Ok (match x with Some x => (key, x) :: r' | None => r' end)))
  end.
Definition reduced (k : nat) (d : dict (oval V)) : HM V (dict (oval V)) := fun h w => (hreduce_dims h k d, h, w).

(** calc_cond_shifted_vals, lines 1046-1092: the current values of the state (or views
    of them) are the argument 'init' of the parameter's equation *)
Definition hcond_shifted (name : string) (p : degprm V) (conds : dict (oval V)) (deg : oval V) (lats : dict (oval V))
    (L C K : nat) : HM V (oval V) :=
  n <- (x <- load deg ;; hlift (third_dim x)) ;;
  let args0 := [("init"%string, deg); ("cond"%string, ODict [])] in
  al <- (if K <? n then a <- reduced K args0 ;; l <- reduced K lats ;; hret (a, l) else hret (args0, lats)) ;;
  let args1 := fst al in
  let lats1 := snd al in
  cl <- hlift (rbind (dgetE lats1 "cond"%string) has_dict) ;;
  cv <- hcall_or_loop (lm_eqn (dp_cond p)) (code (RCond name)) (hgather (compute_args (lm_eqn (dp_cond p))) [cl; conds] []) L C K ;;
  let args2 := dset args1 "cond"%string cv in
  let args3 := fold_left (fun acc (nm : string * mech V) => dset acc (fst nm) (ONum (mc_unitary (snd nm))))
                         (dp_mechs p) args2 in
  let args4 := hadd_own (compute_args (lm_eqn (dp_own p))) lats1 args3 in
  hcall_or_loop (lm_eqn (dp_own p)) (code (ROwn name)) args4 L C K.

(** calc_circ_vals, lines 1155-1184; the result goes into the report at once *)
Definition hcirc_vals (name : string) (c : lmdl V) (k : nat) (conds prms lats : dict (oval V)) : HM V (pyval V) :=
  x <- (o <- hcall (lm_eqn c) (code (RCirc name)) (hgather (compute_args (lm_eqn c)) [lats; conds; prms] []) ;; load o) ;;
  match x with
  | PArr a => hlift (rbind (nslice_first k a) (fun b => Ok (PArr b)))
  | PDict _ => hraise TypeError
  | PNum _ | POth _ => hraise Unmodelled
  end.

(** ** The simulator *)

(** SimState, states.py lines 33-66 *)
Record ostate := OState {
  os_elapsed : tval;
  os_prm : dict (oval V);
  os_prm0 : dict (oval V);
  os_mech : dict (dict (oval V));
  os_mech0 : dict (dict (oval V));
  os_lat : dict (dict (oval V)) }.

(** A state of its own, without shared arrays: the constructor makes deep copies. *)
Definition new_state (st : simstate V) : HM V ostate :=
  a <- newd (st_prm st) ;; b <- newd (st_prm0 st) ;;
  c <- newdd (st_mech st) ;; d <- newdd (st_mech0 st) ;; l <- newdd (st_lat st) ;;
  hret (OState (st_elapsed st) a b c d l).

Definition oset_elapsed (s : ostate) (t : tval) : ostate :=
  OState t (os_prm s) (os_prm0 s) (os_mech s) (os_mech0 s) (os_lat s).

(** sim.py lines 96-117 for one degraded parameter *)
Definition hstress_prm (conds : dict (dict (oval V))) (rep : report V) (dur : Z)
    (st : ostate) (kv : string * degprm V) : HM V ostate :=
  let name := fst kv in let p := snd kv in
  n <- hlift (dgetE (rp_counts rep) name) ;;
  mv <- hlift (dgetE (os_mech st) name) ;;
  cs <- hlift (dgetE conds name) ;;
  m0 <- hlift (dgetE (os_mech0 st) name) ;;
  ls <- hlift (dgetE (os_lat st) name) ;;
  eq <- hprm_equiv_times name p mv cs m0 ls (rp_lots rep) (rp_chps rep) n ;;
  times <- hadd_durations p dur eq ;;
  i0 <- hlift (dgetE (os_prm0 st) name) ;;
  r <- hprm_deg_vals name p times cs i0 ls mv (rp_lots rep) (rp_chps rep) n ;;
  hret (OState (os_elapsed st) (dset (os_prm st) name (fst r)) (os_prm0 st)
               (dset (os_mech st) name (snd r)) (os_mech0 st) (os_lat st)).

Context `{Rng V} `{HashOrd}.

(** _sim_stress_step, lines 89-136.  The condition arrays are new ones. *)
Definition hstress_step (e : env V) (d : device V) (i : nat) (s : strs_spec V)
    (st : ostate) (rep : report V) : HM V (ostate * report V) :=
  cv <- hpure (gen_env_cond_vals e (ss_conds s) (PList (map fst (deg_prms d))) (Some (info_of rep)) (Some d) true 1 1) ;;
  conds <- newdd cv ;;
  st1 <- hfoldM (hstress_prm conds rep (ss_dur s)) (deg_prms d) st ;;
  t <- hlift (add_time_td (os_elapsed st1) (ss_dur s)) ;;
  let st2 := oset_elapsed st1 t in
  start <- hlift (sub_time_td t (ss_dur s)) ;;
  hret (st2, add_summary rep
               (summary_row (ss_name s) "stress" i (TD (ss_dur s)) start t (ss_conds s))).

(** lines 151-180 for one requested parameter *)
Definition hmeasure_prm (e : env V) (d : device V) (i : nat) (conds : dict (dict (oval V))) (step_conds : dict V)
    (st : ostate) (rep : report V) (prm : string) (k : nat) : HM V (list (row V)) :=
  rows <- (match dget (os_prm st) prm with
            | Some cur =>
                match dget d prm with
                | Some (PDeg p) =>
                    cs <- hlift (dgetE conds prm) ;;
                    ls <- hlift (dgetE (os_lat st) prm) ;;
                    v <- (o <- hcond_shifted prm p cs cur ls (rp_lots rep) (rp_chps rep) k ;; load o) ;;
                    hlift (format_measurements v prm (os_elapsed st) i true)
                | _ => hraise AttributeError
                end
            | None =>
                match dget d prm with
                | Some (PCirc c) =>
                    cs <- hlift (dgetE conds prm) ;;
                    ls <- hlift (dgetE (os_lat st) prm) ;;
                    v <- hcirc_vals prm c k cs (os_prm st) ls ;;
                    hlift (format_measurements v prm (os_elapsed st) i true)
                | Some (PDeg _) => hraise AttributeError
                | None =>
                    if dmem step_conds prm then
                      cs <- hlift (dgetE conds prm) ;;
                      v <- (o <- hlift (dgetE cs prm) ;; load o) ;;
                      hlift (format_measurements v prm (os_elapsed st) i false)
                    else hraise MissingParamError
                end
            end) ;;
  vals <- hpure (measure_with e prm (map r_val rows)) ;;
  hret (map (fun rv => Row (r_param (fst rv)) (r_step (fst rv)) (r_dev (fst rv)) (r_chp (fst rv))
                           (r_lot (fst rv)) (r_time (fst rv)) (snd rv)) (combine rows vals)).

(** _sim_meas_step, lines 139-198 *)
Definition hmeas_step (e : env V) (d : device V) (i : nat) (m : meas_spec V)
    (st : ostate) (rep : report V) : HM V (ostate * report V) :=
  cv <- hpure (gen_env_cond_vals e (ms_conds m) (PCounts (ms_counts m)) (Some (info_of rep)) (Some d) false 1 1) ;;
  conds <- newdd cv ;;
  rows <- hfoldM (fun acc (kv : string * nat) =>
                    r <- hmeasure_prm e d i conds (ms_conds m) st rep (fst kv) (snd kv) ;; hret (acc ++ r))
                 (ms_counts m) [] ;;
  hret (st, add_summary (add_measurements rep rows)
              (summary_row (ms_name m) "measure" i (TD 0) (os_elapsed st) (os_elapsed st) (ms_conds m))).

(** simulate, lines 201-237; the initial state is generated, or copied from the one
    given *)
Definition hsim_step (e : env V) (d : device V) (sr : ostate * report V) (ix : nat * step V)
  : HM V (ostate * report V) :=
  match snd ix with
  | SStrs s => hstress_step e d (fst ix) s (fst sr) (snd sr)
  | SMeas m => hmeas_step e d (fst ix) m (fst sr) (snd sr)
  | SOther _ => hret sr
  end.
Definition hrun_steps (e : env V) (d : device V) (i : nat) (steps : list (step V))
    (st : ostate) (rep : report V) : HM V (ostate * report V) :=
  hfoldM (hsim_step e d) (enumerate i steps) (st, rep).
Definition hsimulate (e : env V) (d : device V) (steps : list (step V)) (chps lots : nat)
    (init : option (simstate V)) : HM V (ostate * report V) :=
  let rep := report_init steps chps lots in
  match init with
  | Some st => s <- new_state st ;; hrun_steps e d 0 steps s rep
  | None =>
      r <- hpure (gen_init_state d None 1 1 (Some rep) (TD 0)) ;;
      match ir_report r with
      | Some rep' => s <- new_state (ir_state r) ;; hrun_steps e d 0 steps s rep'
      | None => hraise Unmodelled
      end
  end.
End InPlace.
Arguments ostate : clear implicits.
Arguments impl : clear implicits.
