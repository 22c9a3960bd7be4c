(** Specification notions for experiments that run to the end. *)
From Verif Require Import M_Base M_Num M_Nd M_RandVar M_Latent M_Time M_TestSpec M_Device M_Report M_Env M_Sim
  S_TestSpec S_Device S_Sim S_Shape.
Open Scope nat_scope.

Section Spec.
Context {V : Type} `{NumOps V} `{Rng V}.

(** ** Random variables, latent variables, environments *)

(** A random variable that can be drawn from: numpy accepts its parameters. *)
Definition drawable (r : rv V) : Prop :=
  match rv_dist r with
  | DDeter _ => True
  | DNormal mu sigma => rvalid (NNormal mu sigma) = true
  | DGamma alpha beta => neqb beta n0 = false /\ rvalid (NGamma alpha (ndiv n1 beta)) = true
  | DUniform start stop => rvalid (NUniform start stop) = true
  end.
Definition latent_ok (o : lvar V) : Prop :=
  lv_op o <> None /\ drawable (lv_dev o) /\ drawable (lv_chp o) /\ drawable (lv_lot o).
Definition latents_ok (m : lmdl V) : Prop := forall x o, In (x, o) (lm_vars m) -> latent_ok o.
Definition vrtn_ok (o : emdl V) : Prop :=
  em_op o <> None /\ drawable (em_bat o) /\ drawable (em_chp o) /\ drawable (em_dev o).

(** Every number other than zero and the infinities has a leading digit (there are
    no NaNs). *)
Definition has_digits : Prop := forall x : V, neqb x n0 = false -> nisinf x = false -> nflog10 x <> None.
Definition instm_ok (i : instm V) : Prop :=
  (forall r, in_err i = Some r -> drawable r) /\ (in_prec i = None \/ in_prec i = Some 0%Z \/ has_digits).

(** Only the instruments for what the test [l] measures need to work. *)
Definition env_ok (e : env V) (l : list (step V)) : Prop :=
  (forall n a, dget e (n ++ "_var") = Some a -> exists m, a = AVar m /\ vrtn_ok m) /\
  (forall n a, dget e (n ++ "_instm") = Some a -> exists i, a = AInst i /\ ((exists k, requests l n k) -> instm_ok i)) /\
  dget e "meas_instm" = None.

(** ** Equations *)

(** The equation returns for all numbers and arrays of one shape, if called with
    names it accepts ... *)
Definition computes (f : eqn V) : Prop :=
  forall L C n args w, dwf args -> operands L C n args -> accepts f (dkeys args) ->
    exists v w', call f args w = (Ok v, w').
(** ... or at least when it may be called again for every sample. *)
Definition computes_somehow (f : eqn V) : Prop :=
  forall L C n args w, dwf args -> operands L C n args -> accepts f (dkeys args) ->
    exists v w', call_or_loop f args L C n w = (Ok v, w').

(** Formulas over the arguments: numbers, names, and elementwise functions of one or
    two operands. *)
Inductive formula :=
| FNum (v : V)
| FArg (x : string)
| FMap (f : V -> V) (e : formula)
| FMap2 (f : V -> V -> V) (e1 e2 : formula).
Fixpoint fnames (e : formula) : list string :=
  match e with FNum _ => [] | FArg x => [x] | FMap _ e => fnames e | FMap2 _ e1 e2 => fnames e1 ++ fnames e2 end.
Fixpoint fvalue (e : formula) (args : dict (pyval V)) : res (pyval V) :=
  match e with
  | FNum v => Ok (PNum v)
  | FArg x => dgetE args x
  | FMap f e => rbind (fvalue e args) (pmap f)
  | FMap2 f e1 e2 => rbind (fvalue e1 args) (fun x => rbind (fvalue e2 args) (pmap2 f x))
  end.
(** [f] returns the value of [e]; the names in [e] are exactly its required
    parameters and it has no others. *)
Definition given_by (f : eqn V) (e : formula) : Prop :=
  e_opt f = [] /\ e_kw f = None /\ (forall x, In x (e_req f) <-> In x (fnames e)) /\
  forall args w, e_body f args w = (fvalue e args, w).

(** An equation meant for single samples: given numbers it returns a number; given
    arrays it either returns or raises ValueError (as [if temp > 300:] does). *)
Definition per_sample (f : eqn V) : Prop :=
  (forall args w, dwf args -> (forall x v, In (x, v) args -> exists y, v = PNum y) -> accepts f (dkeys args) ->
     exists y w', call f args w = (Ok (PNum y), w')) /\
  (forall L C n args w, dwf args -> operands L C n args -> accepts f (dkeys args) ->
     exists r w', call f args w = (r, w') /\ (r = Err ValueError \/ exists v, r = Ok v)).

(** ** Tests *)

(** [q] is needed [n] times by a test: requested itself, or by the request of a
    circuit parameter whose equation has an argument [q]. *)
Definition needs (d : device V) (l : list (step V)) (q : string) (n : nat) : Prop :=
  requests l q n \/
  exists p c, requests l p n /\ dget d p = Some (PCirc c) /\ In q (dkeys d) /\ In q (compute_args (lm_eqn c)).

Record test_ok (d : device V) (l : list (step V)) : Prop := {
  (* conditions and requests are dictionaries *)
  to_wf : forall s, In s l -> step_wf s;
  (* what is measured is a parameter of the device or a condition of the step *)
  to_req : forall m x k, In (SMeas m) l -> In (x, k) (ms_counts m) ->
    x <> "meas"%string /\ (In x (dkeys d) \/ In x (dkeys (ms_conds m)));
  (* no parameter of the device is superfluous *)
  to_need : forall x, In x (dkeys d) -> exists n, needs d l x n }.

(** ** Devices *)

Record deg_ok (l : list (step V)) (name : string) (p : degprm V) : Prop := {
  do_lats : latents_ok (dp_init p) /\ latents_ok (dp_cond p) /\ latents_ok (dp_own p) /\
            forall nm m, dget (dp_mechs p) nm = Some m -> latents_ok (mc_mdl m);
  (* the initial value depends on at least one latent variable, and on nothing else *)
  do_init : lm_vars (dp_init p) <> [] /\ accepts (lm_eqn (dp_init p)) (dkeys (lm_vars (dp_init p))) /\
            computes (lm_eqn (dp_init p));
  (* names do not clash *)
  do_names : (forall x, In x (dkeys (dp_mechs p)) -> x <> "init" /\ x <> "cond")%string /\
             (forall x, In x (dkeys (lm_vars (dp_own p))) -> x <> "cond"%string /\ ~ In x (dkeys (dp_mechs p)));
  (* the parameter's equation takes the initial value, the conditional shift, every
     mechanism, and otherwise its own latent variables *)
  do_own : (forall x, In x (e_req (lm_eqn (dp_own p))) ->
              x = "init"%string \/ x = "cond"%string \/ In x (dkeys (dp_mechs p)) \/ In x (dkeys (lm_vars (dp_own p)))) /\
           (e_kw (lm_eqn (dp_own p)) = None -> forall x, x = "init"%string \/ x = "cond"%string \/ In x (dkeys (dp_mechs p)) ->
              In x (e_req (lm_eqn (dp_own p))) \/ In x (e_opt (lm_eqn (dp_own p)))) /\
           computes_somehow (lm_eqn (dp_own p));
  (* a mechanism takes the time, and otherwise its latent variables and conditions
     of every stress *)
  do_mech : forall nm m, dget (dp_mechs p) nm = Some m ->
    takes_time (lm_eqn (mc_mdl m)) /\ computes_somehow (lm_eqn (mc_mdl m)) /\ unit_map (mc_unit m) <> None /\
    forall x, In x (e_req (lm_eqn (mc_mdl m))) ->
      x = "time"%string \/ In x (dkeys (lm_vars (mc_mdl m))) \/ forall s, In (SStrs s) l -> In x (dkeys (ss_conds s));
  (* the conditional shift takes its latent variables and conditions of every
     measurement of the parameter *)
  do_cond : computes_somehow (lm_eqn (dp_cond p)) /\
    forall x, In x (e_req (lm_eqn (dp_cond p))) ->
      In x (dkeys (lm_vars (dp_cond p))) \/
      forall m k, In (SMeas m) l -> In (name, k) (ms_counts m) -> In x (dkeys (ms_conds m)) }.

(** What the equation of a circuit parameter can be given in a measurement. *)
Definition on_hand (d : device V) (c : lmdl V) (m : meas_spec V) (x : string) : Prop :=
  In x (dkeys (lm_vars c)) \/ In x (dkeys (ms_conds m)) \/ exists p, dget d x = Some (PDeg p).

(** All arguments of the equation have [n] devices: the latent variables as many as
    the test needs of the circuit parameter, the conditions as many as are requested,
    the degraded parameters as many as the test needs of them. *)
Definition circ_size (d : device V) (l : list (step V)) (m : meas_spec V) (name : string) (k : nat) (c : lmdl V) (n : nat) : Prop :=
  forall x, In x (compute_args (lm_eqn c)) ->
    (In x (dkeys (lm_vars c)) -> greatest (needs d l name) n) /\
    (In x (dkeys (ms_conds m)) -> k = n) /\
    (forall p, dget d x = Some (PDeg p) -> greatest (needs d l x) n).

Record circ_ok (d : device V) (l : list (step V)) (name : string) (c : lmdl V) : Prop := {
  co_lats : latents_ok c;
  co_eqn : computes (lm_eqn c) /\ respects (lm_eqn c);
  co_args : forall m k, In (SMeas m) l -> In (name, k) (ms_counts m) ->
    (forall x, In x (e_req (lm_eqn c)) -> on_hand d c m x) /\
    (exists x, In x (compute_args (lm_eqn c)) /\ on_hand d c m x);
  co_size : forall m k, In (SMeas m) l -> In (name, k) (ms_counts m) -> exists n, circ_size d l m name k c n }.

(** The equations need to return arrays of the right size only for the numbers of
    devices that occur: an equation for single samples may well return a number when
    given arrays of one element (see C77_one_sample_refuted). *)
Record device_ok (d : device V) (l : list (step V)) (L C : nat) : Prop := {
  dk_wf : device_wf d;
  dk_regular : regular_at d L C (needs d l);
  dk_plain : circuits_plain d;
  dk_deg : forall name p, dget d name = Some (PDeg p) -> deg_ok l name p;
  dk_circ : forall name c, dget d name = Some (PCirc c) -> circ_ok d l name c }.

(** The rows [g] of a request: one for each device of a degraded parameter and for each
    requested sensor; of a circuit parameter the whole table of all its devices, but of
    at most as many lots as values were requested. *)
Definition rows_exact (d : device V) (l : list (step V)) (L C : nat) (kv : string * nat) (g : list (row V)) : Prop :=
  match dget d (fst kv) with
  | Some (PDeg _) => labelled L C (snd kv) g
  | Some (PCirc c) => exists m n, In (SMeas m) l /\ In kv (ms_counts m) /\ circ_size d l m (fst kv) (snd kv) c n /\
      labelled (Nat.min (snd kv) L) C n g
  | None => unlabelled (snd kv) g
  end.
End Spec.
Arguments formula : clear implicits.
Arguments has_digits V {_}.
