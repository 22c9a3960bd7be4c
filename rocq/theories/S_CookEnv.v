(** Specification notions for the prebuilt environments. *)
From Coq Require Import QArith Reals.
From Verif Require Import M_Base M_Num M_RandVar M_Latent M_Device M_Report M_Env S_Latent S_Env S_EnvR.
Open Scope nat_scope.

(** A request that can be answered: every name has a count, and a name that is not a
    device parameter is a condition. *)
Definition answerable {V} `{NumOps V} (base : dict V) (p : prms_arg) (info : option tinfo) (dev : option (device V)) : Prop :=
  (match p with PList _ => info <> None | PCounts _ => True end) /\
  forall x, In x (request p) -> (exists n, request_count p info x = Some n) /\ (dev_prm dev x = None -> In x (dkeys base)).

(** [y] is a whole number of units. *)
Definition multiple_of (u y : R) : Prop := exists n, y = (IZR n * u)%R.

(** The reading of a value [x] by an instrument with [p] significant figures and a
    range, when the error drawn is [err]. *)
Definition reads_as (p : Z) (lo hi x err y : R) : Prop :=
  exists r, sig_figs p (x + err)%R r /\ y = Rmax lo (Rmin hi r).
