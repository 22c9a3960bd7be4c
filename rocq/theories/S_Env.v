(** Specification notions for instruments and test environments. *)
From Coq Require Import QArith.
From Verif Require Import M_Base M_Num M_Nd M_RandVar M_Latent M_Device M_Report M_Env S_Latent.
Open Scope nat_scope.

Section Spec.
Context {V : Type} `{NumOps V}.

(** ** Instruments *)
Definition nan (x : V) : Prop := neqb x x = false.
(** The comparisons order all values that are not NaN. *)
Record ordered : Prop := {
  ord_refl : forall x, ~ nan x -> nleb x x = true;
  ord_total : forall x y, ~ nan x -> ~ nan y -> nleb x y = true \/ nleb y x = true;
  ord_trans : forall x y z, ~ nan x -> ~ nan y -> ~ nan z -> nleb x y = true -> nleb y z = true -> nleb x z = true;
  ord_lt : forall x y, ~ nan x -> ~ nan y -> nltb x y = negb (nleb y x) }.

(** Between two limits given in either order. *)
Definition between (l h y : V) : Prop :=
  (nleb l y = true /\ nleb y h = true) \/ (nleb h y = true /\ nleb y l = true).

(** What limits (either may be absent) require of a value. *)
Definition within (lims : option V * option V) (y : V) : Prop :=
  match lims with
  | (Some l, Some h) => between l h y
  | (Some l, None) => nleb l y = true
  | (None, Some h) => nleb y h = true
  | (None, None) => True
  end.
(** No value of the range lies strictly between [r] and [y]. *)
Definition nearest (lims : option V * option V) (r y : V) : Prop :=
  forall z, ~ nan z -> within lims z -> (nleb r z = true -> nleb y z = true) /\ (nleb z r = true -> nleb z y = true).
Definition nan_free (lims : option V * option V) : Prop :=
  (forall l, fst lims = Some l -> ~ nan l) /\ (forall h, snd lims = Some h -> ~ nan h).

(** The three effects on one value. *)
Definition rounded (p : option Z) (x r : V) : Prop :=
  match p with
  | None | Some 0%Z => r = x
  | Some k => (neqb x n0 = true /\ r = x) \/ (nisinf x = true /\ r = x) \/
              (neqb x n0 = false /\ nisinf x = false /\
               exists e, nflog10 x = Some e /\ r = nround x (k - e - 1)%Z)
  end.
Definition limited (lims : option (option V * option V)) (r y : V) : Prop :=
  match lims with
  | Some (l, h) => y = clip l h r
  | None => y = r
  end.

(** ** Registration *)

(** The object that comes last among those with a name. *)
Fixpoint last_named {O} (name_of : O -> option string) (objs : list O) (ids : list nat) (n : string) : option O :=
  match ids with
  | [] => None
  | i :: r =>
      match last_named name_of objs r n with
      | Some o => Some o
      | None => match nth_error objs i with
                | Some o => match name_of o with
                            | Some k => if String.eqb k n then Some o else None
                            | None => None
                            end
                | None => None
                end
      end
  end.

(** The instrument (or variation model) a registration gives for a name: by key
    for a dictionary of distinct objects, by the name of the object for a list. *)
Definition given {O} (name_of : O -> option string) (objs : list O) (r : reg) (n : string) : option O :=
  match r with
  | RNone => None
  | RDict d => match dget d n with Some i => nth_error objs i | None => None end
  | RList l => last_named name_of objs l n
  end.
(** A dictionary has distinct keys; here also distinct objects. *)
Definition reg_plain (r : reg) : Prop :=
  match r with RDict d => dwf d /\ NoDup (map snd d) | _ => True end.

(** ** Conditions *)

(** Does a parameter use a condition, when stressed or when measured? *)
Definition depends (q : prm V) (stress : bool) (c : string) : Prop :=
  match q with
  | PDeg p => In c (compute_args (lm_eqn (dp_own p))) \/
      (stress = true /\ exists nm m, In (nm, m) (dp_mechs p) /\ In c (compute_args (lm_eqn (mc_mdl m)))) \/
      (stress = false /\ In c (compute_args (lm_eqn (dp_cond p))))
  | PCirc c' => In c (compute_args (lm_eqn c'))
  end.

(** [w'] is reached from [w] by reading random variables. *)
Inductive reached `{Rng V} : world -> world -> Prop :=
| reached_refl w : reached w w
| reached_step r n w xs w1 w' : reads r n w xs w1 -> reached w1 w' -> reached w w'.

(** Device parameters and environmental conditions in a request. *)
Definition dev_prm (dev : option (device V)) (x : string) : option (prm V) :=
  match dev with Some d => dget d x | None => None end.
Definition request (p : prms_arg) : list string := match p with PList l => l | PCounts d => dkeys d end.
Definition request_count (p : prms_arg) (info : option tinfo) (x : string) : option nat :=
  match p with
  | PCounts d => dget d x
  | PList _ => match info with Some i => dget (ti_counts i) x | None => None end
  end.
End Spec.
Arguments ordered V {_}.
