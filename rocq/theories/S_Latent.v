(** Specification of layered stochastic variables and of sampling. *)
From Verif Require Import M_Base M_Num M_Nd M_RandVar M_Latent.
From Coq Require Import QArith.
Open Scope nat_scope.

Section Spec.
Context {V : Type} `{NumOps V} `{Rng V}.

(** State of a generator after [n] draws from one distribution. *)
Fixpoint state_after (p : npdist V) (n s : nat) : nat :=
  match n with O => s | S k => state_after p k (snd (rdraw p s)) end.

(** [xs] are the next [n] values of random variable [r] in world [w], and [w']
    is the world with exactly those draws consumed. *)
Definition reads (r : rv V) (n : nat) (w : world) (xs : list V) (w' : world) : Prop :=
  length xs = n /\
  match rv_dist r with
  | DDeter v => (forall x, In x xs -> x = v) /\ forall g, w' g = w g
  | d => exists p, params_numpy d = Ok p /\ rvalid p = true /\
      (forall i, i < n -> nth_error xs i = Some (fst (rdraw p (state_after p i (w (rv_gen r)))))) /\
      (forall g, w' g = if g =? rv_gen r then state_after p n (w (rv_gen r)) else w g)
  end.

(** The two variation types by name, neutral element and operation. *)
Definition type_name (t : vtype) : string := match t with Scaling => "scaling" | Offset => "offset" end.
Definition neutral (t : vtype) : V := match t with Scaling => nofQ 1%Q | Offset => nofQ 0%Q end.
Definition combine (t : vtype) (x y : V) : V := match t with Scaling => nmul x y | Offset => nadd x y end.

(** What a user has told a LatentVar: nothing but the last value assigned to
    each attribute. *)
Record told := Told {
  t_type : vtype; t_deter : option V; t_dev : option (rv V); t_chp : option (rv V); t_lot : option (rv V) }.

(** Effect of one assignment on what was told; an invalid type has none. *)
Inductive tells : told -> lassign V -> res unit -> told -> Prop :=
| tells_dev s r : tells s (LDev r) (Ok tt) (Told (t_type s) (t_deter s) r (t_chp s) (t_lot s))
| tells_chp s r : tells s (LChp r) (Ok tt) (Told (t_type s) (t_deter s) (t_dev s) r (t_lot s))
| tells_lot s r : tells s (LLot r) (Ok tt) (Told (t_type s) (t_deter s) (t_dev s) (t_chp s) r)
| tells_deter s d : tells s (LDeter d) (Ok tt) (Told (t_type s) d (t_dev s) (t_chp s) (t_lot s))
| tells_name s n : tells s (LName n) (Ok tt) s
| tells_type s t : tells s (LType (type_name t)) (Ok tt) (Told t (t_deter s) (t_dev s) (t_chp s) (t_lot s))
| tells_bad s x : (forall t, x <> type_name t) -> tells s (LType x) (Err InvalidTypeError) s.

(** A layer behaves as told: it samples like the variable given, or it always
    samples the neutral element and consumes nothing. *)
Definition behaves (t : vtype) (r : rv V) (given : option (rv V)) : Prop :=
  match given with
  | Some x => forall n w, sample r n w = sample x n w
  | None => forall n w, sample r n w = (Ok (repeat (neutral t) n), w)
  end.

Definition lvar_shows (o : lvar V) (s : told) : Prop :=
  lv_type o = Some (t_type s) /\
  (exists t, lv_op o = Some t /\ forall x y, op_of t x y = combine (t_type s) x y) /\
  lv_deter o = t_deter s /\
  behaves (t_type s) (lv_dev o) (t_dev s) /\
  behaves (t_type s) (lv_chp o) (t_chp s) /\
  behaves (t_type s) (lv_lot o) (t_lot s) /\
  lv_devf o = match t_dev s with Some _ => true | None => false end /\
  lv_chpf o = match t_chp s with Some _ => true | None => false end /\
  lv_lotf o = match t_lot s with Some _ => true | None => false end.

(** The same for an EnvVrtnMdl (no deterministic value). *)
Record etold := ETold {
  et_type : vtype; et_dev : option (rv V); et_chp : option (rv V); et_bat : option (rv V) }.
Inductive etells : etold -> eassign V -> res unit -> etold -> Prop :=
| etells_dev s r : etells s (EDev r) (Ok tt) (ETold (et_type s) r (et_chp s) (et_bat s))
| etells_chp s r : etells s (EChp r) (Ok tt) (ETold (et_type s) (et_dev s) r (et_bat s))
| etells_bat s r : etells s (EBat r) (Ok tt) (ETold (et_type s) (et_dev s) (et_chp s) r)
| etells_name s n : etells s (EName n) (Ok tt) s
| etells_type s t : etells s (EType (type_name t)) (Ok tt) (ETold t (et_dev s) (et_chp s) (et_bat s))
| etells_bad s x : (forall t, x <> type_name t) -> etells s (EType x) (Err InvalidTypeError) s.

Definition emdl_shows (o : emdl V) (s : etold) : Prop :=
  em_type o = Some (et_type s) /\
  (exists t, em_op o = Some t /\ forall x y, op_of t x y = combine (et_type s) x y) /\
  behaves (et_type s) (em_dev o) (et_dev s) /\
  behaves (et_type s) (em_chp o) (et_chp s) /\
  behaves (et_type s) (em_bat o) (et_bat s).

(** Running a history of assignments on an object, collecting the outcomes. *)
Fixpoint run_assigns {O A} (f : O -> A -> res unit * O) (o : O) (l : list A) : list (res unit) * O :=
  match l with
  | [] => ([], o)
  | a :: r => let '(x, o1) := f o a in let '(xs, o2) := run_assigns f o1 r in (x :: xs, o2)
  end.
Inductive tells_all {S A} (R : S -> A -> res unit -> S -> Prop) : S -> list A -> list (res unit) -> S -> Prop :=
| ta_nil s : tells_all R s [] [] s
| ta_cons s a x s1 l xs s2 : R s a x s1 -> tells_all R s1 l xs s2 -> tells_all R s (a :: l) (x :: xs) s2.

(** Element [l][c][d] of an (L, C, D) array. *)
Definition elem3 (a : nd V) (L C D l c d : nat) (v : V) : Prop :=
  nshape a = [L; C; D] /\ length (ndata a) = L * C * D /\
  nth_error (ndata a) ((l * C + c) * D + d) = Some v.

(** Sampling an undefined layer is neutral (used with numbers for which the
    neutral element really is neutral). *)
Definition neutral_laws : Prop := (forall x : V, nadd x (nofQ 0%Q) = x) /\ (forall x : V, nmul x (nofQ 1%Q) = x).
(** Successive calls of sample with the given quantities. *)
Definition sample_calls (r : rv V) (ns : list nat) : M (list (list V)) := mapM (sample r) ns.

(** The draws of a layer as told: of the variable given, or neutral values. *)
Definition layer_reads (t : vtype) (given : option (rv V)) (n : nat) (w : world) (xs : list V) (w' : world) : Prop :=
  match given with
  | Some r => reads r n w xs w'
  | None => xs = repeat (neutral t) n /\ w' = w
  end.
(** A variable whose parameters numpy (or 1/beta) rejects with [e]. *)
Definition rejected (r : rv V) (e : exn) : Prop := forall n w, sample r n w = (Err e, w).

(** The name under which a distribution is exported; the distributions exported
    for one latent variable. *)
Definition form_name (f : cbi_form V) : option string := match f with InPymc n _ => n | InPyro n _ => n end.
Definition cbi_parts (x : cbi V) : list (cbi_form V) :=
  cbi_dev x :: (match cbi_chp x with Some c => [c] | None => [] end) ++
               (match cbi_lot x with Some c => [c] | None => [] end).
End Spec.
Arguments told : clear implicits.
Arguments etold : clear implicits.
