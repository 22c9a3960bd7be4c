(** Specification notions for exceptions raised by equations. *)
From Verif Require Import M_Base M_Num M_Nd M_RandVar M_Latent M_Time M_Device M_Env S_Device S_Sim.
Open Scope nat_scope.

Section Spec.
Context {V : Type}.

(** A computation that does as [m], or raises one of the exceptions [X]. *)
Definition stops_with {A} (X : exn -> Prop) (m m' : M A) : Prop :=
  forall w, m' w = m w \/ exists x w', m' w = (Err x, w') /\ X x.

(** An equation with the signature of [f] that returns what [f] returns, or raises
    one of the exceptions [X]; which, may depend on all arguments. *)
Definition guarded_by (X : exn -> Prop) (f f' : eqn V) : Prop :=
  e_req f' = e_req f /\ e_opt f' = e_opt f /\ e_kw f' = e_kw f /\
  forall args, stops_with X (e_body f args) (e_body f' args).

(** Models that differ in their equations only. *)
Definition lmdl_guarded (X : exn -> Prop) (m m' : lmdl V) : Prop :=
  lm_vars m' = lm_vars m /\ guarded_by X (lm_eqn m) (lm_eqn m').
Definition mech_guarded (X : exn -> Prop) (m m' : mech V) : Prop :=
  mc_kind m' = mc_kind m /\ mc_unitary m' = mc_unitary m /\ mc_unit m' = mc_unit m /\
  lmdl_guarded X (mc_mdl m) (mc_mdl m').
(** [X]: exceptions of the equations for initial values and circuits, [Y]: of all others *)
Definition prm_guarded (X Y : exn -> Prop) (q q' : prm V) : Prop :=
  match q, q' with
  | PDeg p, PDeg p' =>
      lmdl_guarded X (dp_init p) (dp_init p') /\ lmdl_guarded Y (dp_cond p) (dp_cond p') /\
      dp_cunit p' = dp_cunit p /\ lmdl_guarded Y (dp_own p) (dp_own p') /\
      Forall2 (fun a b => fst b = fst a /\ mech_guarded Y (snd a) (snd b)) (dp_mechs p) (dp_mechs p')
  | PCirc c, PCirc c' => lmdl_guarded X c c'
  | _, _ => False
  end.
Definition device_guarded (X Y : exn -> Prop) (d d' : device V) : Prop :=
  Forall2 (fun a b => fst b = fst a /\ prm_guarded X Y (snd a) (snd b)) d d'.

(** Every equation of the device raises exceptions [X] only. *)
Definition raises_only (X : exn -> Prop) (f : eqn V) : Prop :=
  forall args w x, fst (e_body f args w) = Err x -> X x.
Definition device_raises_only (X : exn -> Prop) (d : device V) : Prop :=
  forall k q, In (k, q) d ->
    match q with
    | PDeg p => raises_only X (lm_eqn (dp_init p)) /\ raises_only X (lm_eqn (dp_cond p)) /\ raises_only X (lm_eqn (dp_own p)) /\
                forall nm m, In (nm, m) (dp_mechs p) -> raises_only X (lm_eqn (mc_mdl m))
    | PCirc c => raises_only X (lm_eqn c)
    end.

(** The random variables of a device and of an environment. *)
Definition lmdl_has (m : lmdl V) (r : rv V) : Prop :=
  exists x o, In (x, o) (lm_vars m) /\ (r = lv_dev o \/ r = lv_chp o \/ r = lv_lot o).
Definition device_has (d : device V) (r : rv V) : Prop :=
  exists k q, In (k, q) d /\
    match q with
    | PDeg p => lmdl_has (dp_init p) r \/ lmdl_has (dp_cond p) r \/ lmdl_has (dp_own p) r \/
                exists nm m, In (nm, m) (dp_mechs p) /\ lmdl_has (mc_mdl m) r
    | PCirc c => lmdl_has c r
    end.
Definition env_has (e : env V) (r : rv V) : Prop :=
  exists k a, In (k, a) e /\
    match a with
    | AVar m => r = em_bat m \/ r = em_chp m \/ r = em_dev m
    | AInst i => in_err i = Some r
    end.
(** A gamma distribution with rate 0: its scale cannot be computed. *)
Definition zero_rate `{NumOps V} (r : rv V) : Prop :=
  exists alpha beta, rv_dist r = DGamma alpha beta /\ neqb beta n0 = true.
(** A mechanism whose time unit the library does not know. *)
Definition unknown_unit (d : device V) : Prop :=
  exists k p nm m, In (k, PDeg p) d /\ In (nm, m) (dp_mechs p) /\ unit_map (mc_unit m) = None.
End Spec.

(** The exceptions that arise inside the library while it simulates without a fault of
    an equation, a distribution or a unit: errors of Python and numpy, and behaviour
    left out of the model. *)
Definition of_python (x : exn) : Prop :=
  In x [KeyError; TypeError; AttributeError; ValueError; IndexError; Unmodelled].

Section Sample.
Context {V : Type} `{NumOps V}.
(** Called with numbers, the equation returns something that is not one number, for
    which numpy raises [x] when it is stored in an array: an array of several
    elements or none, or a dictionary. *)
Definition no_number (f : eqn V) (x : exn) : Prop :=
  forall args w, dwf args -> (forall k v, In (k, v) args -> exists y, v = PNum y) -> accepts f (dkeys args) ->
    exists v w', call f args w = (Ok v, w') /\
      match v with
      | PArr a => length (ndata a) <> 1 /\ x = ValueError
      | PDict _ => x = TypeError
      | PNum _ | POth _ => False
      end.
End Sample.
