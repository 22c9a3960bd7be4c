(** Specification notions for "which random generators a computation uses". *)
From Verif Require Import M_Base M_Num M_Nd M_RandVar M_Latent M_Device M_Env M_TestSpec M_Report.
Open Scope nat_scope.

(** [m] only uses generators of [G]: the others keep their state, and neither the
    outcome nor what becomes of any generator depends on the others' states. *)
Definition confined {A} (G : nat -> Prop) (m : M A) : Prop :=
  (forall w g, ~ G g -> snd (m w) g = w g) /\
  (forall w w', (forall g, G g -> w g = w' g) ->
     fst (m w) = fst (m w') /\ forall g, w g = w' g -> snd (m w) g = snd (m w') g).

Section Spec.
Context {V : Type} `{NumOps V}.

(** A random variable draws from its generator, a Deterministic one from none. *)
Definition rv_in (G : nat -> Prop) (r : rv V) : Prop := (exists v, rv_dist r = DDeter v) \/ G (rv_gen r).
Definition lvar_in (G : nat -> Prop) (o : lvar V) : Prop :=
  rv_in G (lv_dev o) /\ rv_in G (lv_chp o) /\ rv_in G (lv_lot o).
Definition vars_in (G : nat -> Prop) (m : lmdl V) : Prop := forall x o, In (x, o) (lm_vars m) -> lvar_in G o.
Definition eqn_in (G : nat -> Prop) (f : eqn V) : Prop := forall args, confined G (e_body f args).

(** The variation of a condition in an environment: what all parameters share, and
    the part drawn for every parameter. *)
Definition shared_in (G : nat -> Prop) (e : env V) (c : string) : Prop :=
  forall m, vrtn_mdl e c = Ok m -> rv_in G (em_bat m) /\ rv_in G (em_chp m).
Definition device_in (G : nat -> Prop) (e : env V) (c : string) : Prop :=
  forall m, vrtn_mdl e c = Ok m -> rv_in G (em_dev m).
Definition cond_in (G : nat -> Prop) (e : env V) (c : string) : Prop := shared_in G e c /\ device_in G e c.
(** The error of the instrument of [x]. *)
Definition error_in (G : nat -> Prop) (e : env V) (x : string) : Prop :=
  forall i r, meas_instm e x = Ok (FInstm i) -> in_err i = Some r -> rv_in G r.

(** The equations of a parameter used while stressing and while measuring, and the
    latent variables and the initial value equation. *)
Definition ageing_in (G : nat -> Prop) (p : degprm V) : Prop :=
  (forall n m, In (n, m) (dp_mechs p) -> eqn_in G (lm_eqn (mc_mdl m))) /\ eqn_in G (lm_eqn (dp_own p)).
Definition reading_in (G : nat -> Prop) (p : degprm V) : Prop :=
  eqn_in G (lm_eqn (dp_cond p)) /\ eqn_in G (lm_eqn (dp_own p)).
Definition birth_in (G : nat -> Prop) (q : prm V) : Prop :=
  match q with
  | PDeg p => vars_in G (dp_init p) /\ eqn_in G (lm_eqn (dp_init p)) /\ vars_in G (dp_cond p) /\
              (forall n m, In (n, m) (dp_mechs p) -> vars_in G (mc_mdl m)) /\ vars_in G (dp_own p)
  | PCirc c => vars_in G c
  end.

(** The stress steps of a test, and its measurement steps, on a device in an
    environment. *)
Definition stressing_in (G : nat -> Prop) (e : env V) (d : device V) (l : list (step V)) : Prop :=
  (forall s c, In (SStrs s) l -> In c (dkeys (ss_conds s)) -> cond_in G e c) /\
  (forall n p, In (n, PDeg p) d -> ageing_in G p).
Definition measuring_in (G : nat -> Prop) (e : env V) (d : device V) (l : list (step V)) : Prop :=
  (forall m c, In (SMeas m) l -> In c (dkeys (ms_conds m)) -> cond_in G e c) /\
  (forall m x, In (SMeas m) l -> In x (dkeys (ms_counts m)) ->
     error_in G e x /\
     (forall p, dget d x = Some (PDeg p) -> reading_in G p) /\
     (forall c, dget d x = Some (PCirc c) -> eqn_in G (lm_eqn c))).

(** A row under another step number. *)
Definition renumber (j : nat) (r : row V) : row V :=
  Row (r_param r) j (r_dev r) (r_chp r) (r_lot r) (r_time r) (r_val r).

(** Leaving out a name. *)
Definition without {A} (q : string) (d : dict A) : dict A := filter (fun kv => negb (String.eqb (fst kv) q)) d.
Definition unmeasured (q : string) (s : step V) : step V :=
  match s with
  | SMeas m => SMeas (MeasSpec (without q (ms_counts m)) (ms_conds m) (ms_name m))
  | _ => s
  end.
Definition state_without (q : string) (s : simstate V) : simstate V :=
  SimState (st_elapsed s) (without q (st_prm s)) (without q (st_prm0 s)) (without q (st_mech s))
           (without q (st_mech0 s)) (without q (st_lat s)).
Definition report_without (q : string) (r : report V) : report V :=
  Report (rp_chps r) (rp_lots r) (without q (rp_counts r))
         (filter (fun x => negb (String.eqb (r_param x) q)) (rp_meas r)) (rp_sum r).

(** What the parameter [x] of the device uses: its models lie in [G], and so does the
    device-level variation of the conditions it depends on in the steps of a test and
    the error of its instrument. *)
Definition parameter_in `{HashOrd} (G : nat -> Prop) (e : env V) (l : list (step V)) (x : string) (p : prm V) : Prop :=
  birth_in G p /\
  (match p with
   | PDeg p' => ageing_in G p' /\ reading_in G p' /\
       (forall s c, In (SStrs s) l -> In c (dependencies p (dkeys (ss_conds s)) true) -> device_in G e c)
   | PCirc c => eqn_in G (lm_eqn c)
   end) /\
  (forall m c, In (SMeas m) l -> In x (dkeys (ms_counts m)) -> In c (dependencies p (dkeys (ms_conds m)) false) -> device_in G e c) /\
  (forall m, In (SMeas m) l -> In x (dkeys (ms_counts m)) -> error_in G e x).

(** The rest of a test: the variation shared by all parameters, and the conditions
    that are measured themselves. *)
Definition surroundings_in (G : nat -> Prop) (e : env V) (d : device V) (l : list (step V)) : Prop :=
  (forall s c, In (SStrs s) l -> In c (dkeys (ss_conds s)) -> shared_in G e c) /\
  (forall m c, In (SMeas m) l -> In c (dkeys (ms_conds m)) -> shared_in G e c) /\
  (forall m x, In (SMeas m) l -> In x (dkeys (ms_counts m)) -> dget d x = None -> cond_in G e x /\ error_in G e x).

(** The stress steps alone. *)
Definition stresses (l : list (step V)) : list (strs_spec V) :=
  flat_map (fun s => match s with SStrs x => [x] | _ => [] end) l.
End Spec.
