(** Specification notions for device models: broadcasting, argument lookup,
    per-sample selection, truncation to fewer devices. *)
From Coq Require Import QArith.
From Verif Require Import M_Base M_Num M_Nd M_RandVar M_Latent M_Device.
Open Scope nat_scope.

(** A multi-index inside a shape. *)
Definition inside (s idx : list nat) : Prop := Forall2 (fun i n => i < n) idx s.

(** Shape [s] can be broadcast to shape [u] (both written innermost axis first):
    missing axes are added, axes of length 1 are stretched. *)
Inductive stretches : list nat -> list nat -> Prop :=
| st_nil u : stretches [] u
| st_one s b u : stretches s u -> stretches (1 :: s) (b :: u)
| st_same a s u : stretches s u -> stretches (a :: s) (a :: u).
Definition under (s u : list nat) : Prop := stretches (rev s) (rev u).

(** Index [idx'] of a broadcast array shows element [idx] of an array of shape
    [s]: the innermost axes correspond, an axis of length 1 shows its only entry. *)
Inductive shows_rev : list nat -> list nat -> list nat -> Prop :=
| sh_nil j : shows_rev [] j []
| sh_one s i j x : shows_rev s j i -> shows_rev (1 :: s) (x :: j) (0 :: i)
| sh_same a s i j x : a <> 1 -> shows_rev s j i -> shows_rev (a :: s) (x :: j) (x :: i).
Definition shows (s idx' idx : list nat) : Prop := shows_rev (rev s) (rev idx') (rev idx).

Section Spec.
Context {V : Type} `{NumOps V}.

(** The first of several dictionaries that has a key. *)
Fixpoint first_of (sources : list (dict (pyval V))) (x : string) : option (pyval V) :=
  match sources with
  | [] => None
  | d :: s => match dget d x with Some v => Some v | None => first_of s x end
  end.

(** Can the equation be called with keyword arguments of exactly these names? *)
Definition accepts (f : eqn V) (names : list string) : Prop :=
  (forall x, In x (e_req f) -> In x names) /\
  (e_kw f = None -> forall x, In x names -> In x (e_req f) \/ In x (e_opt f)).

(** Does the signature have a place for an argument called time? *)
Definition takes_time (f : eqn V) : Prop :=
  In "time"%string (e_req f) \/ In "time"%string (e_opt f) \/ e_kw f <> None.

(** [picks i j k p q]: what the per-sample evaluation passes instead of [p] for
    the sample (i, j, k); [None] if it passes nothing. *)
Inductive picks (i j k : nat) : pyval V -> option (pyval V) -> Prop :=
| pk_num v : picks i j k (PNum v) (Some (PNum v))
| pk_oth v : picks i j k (POth v) None
| pk_elem a v n1 n2 n3 : nshape a = [n1; n2; n3] -> i < n1 -> j < n2 -> k < n3 ->
    nth_error (ndata a) ((i * n2 + j) * n3 + k) = Some v -> picks i j k (PArr a) (Some (PNum v))
| pk_dict d d' : picks_all i j k d d' -> picks i j k (PDict d) (Some (PDict d'))
with picks_all (i j k : nat) : dict (pyval V) -> dict (pyval V) -> Prop :=
| pa_nil : picks_all i j k [] []
| pa_some key v x d d' : picks i j k v (Some x) -> picks_all i j k d d' ->
    picks_all i j k ((key, v) :: d) ((key, x) :: d')
| pa_none key v d d' : picks i j k v None -> picks_all i j k d d' ->
    picks_all i j k ((key, v) :: d) d'.

(** Every array of an argument, at any depth, has exactly three axes and at least
    L x C x D elements along them (and consistent data). *)
Inductive sized (L C D : nat) : pyval V -> Prop :=
| sz_num v : sized L C D (PNum v)
| sz_oth v : sized L C D (POth v)
| sz_arr a n1 n2 n3 : nshape a = [n1; n2; n3] -> length (ndata a) = n1 * n2 * n3 ->
    L <= n1 -> C <= n2 -> D <= n3 -> sized L C D (PArr a)
| sz_dict d : (forall key v, In (key, v) d -> sized L C D v) -> sized L C D (PDict d).

(** The equation is called once per sample, in row-major order, each time with the
    sample's own arguments; [vs] are the results. *)
Inductive called_per_sample (f : eqn V) (args : dict (pyval V)) :
    list (nat * nat * nat) -> world -> list V -> world -> Prop :=
| cs_nil w : called_per_sample f args [] w [] w
| cs_cons i j k r w a v x w1 vs w2 :
    picks_all i j k args a -> call f a w = (Ok v, w1) ->
    (v = PNum x \/ v = POth x \/ exists s, v = PArr (Nd s [x])) ->
    called_per_sample f args r w1 vs w2 ->
    called_per_sample f args ((i, j, k) :: r) w (x :: vs) w2.

(** All samples in row-major order. *)
Definition samples (L C D : nat) : list (nat * nat * nat) :=
  flat_map (fun i => flat_map (fun j => map (fun k => (i, j, k)) (seq 0 D)) (seq 0 C)) (seq 0 L).

(** An equation acts element by element: its array result holds, at every sample,
    its own (scalar) result for that sample's arguments; it draws nothing. *)
Definition acts_per_sample (f : eqn V) (args : dict (pyval V)) (L C D : nat) (a : nd V) : Prop :=
  nshape a = [L; C; D] /\ length (ndata a) = L * C * D /\
  forall i j k args' w, i < L -> j < C -> k < D -> picks_all i j k args args' ->
    exists v, call f args' w = (Ok (PNum v), w) /\ nth_error (ndata a) ((i * C + j) * D + k) = Some v.

(** [cut K p q]: [q] is [p] with every array, at any depth, reduced to the first K
    devices of every chip. *)
Inductive cut (K : nat) : pyval V -> pyval V -> Prop :=
| ct_arr a b L C D : nshape a = [L; C; D] -> nshape b = [L; C; K] -> K <= D ->
    length (ndata a) = L * C * D -> length (ndata b) = L * C * K ->
    (forall l c d, l < L -> c < C -> d < K ->
       nth_error (ndata b) ((l * C + c) * K + d) = nth_error (ndata a) ((l * C + c) * D + d)) ->
    cut K (PArr a) (PArr b)
| ct_dict d d' : cut_all K d d' -> cut K (PDict d) (PDict d')
with cut_all (K : nat) : dict (pyval V) -> dict (pyval V) -> Prop :=
| ca_nil : cut_all K [] []
| ca_cons key v x d d' : cut K v x -> cut_all K d d' -> cut_all K ((key, v) :: d) ((key, x) :: d').

(** A stress of a single mechanism over a list of durations (numbers in its unit)
    at fixed conditions and latents, as a simulation does it step by step. *)
Definition stress_mech (m : mech V) (conds lats : dict (pyval V)) (L C D : nat) (pre : pyval V) (dur : V)
  : M (pyval V) :=
  (t <- mech_equiv_time m pre conds lats L C D ;;
   t' <- lift (pmap2 nadd t (PNum dur)) ;;
   mech_deg_vals m t' pre conds lats L C D)%m.

(** A sequence of stresses of one mechanism at fixed conditions and latents on the
    array values [vs] (of shape [s]); [found vs ys] constrains the equivalent
    times [ys] that the search returned for values [vs]. *)
Inductive stresses (m : mech V) (conds lats : dict (pyval V)) (L C D : nat) (s : list nat)
    (found : list V -> list V -> Prop) : list V -> list V -> world -> list V -> world -> Prop :=
| str_nil vs w : stresses m conds lats L C D s found [] vs w vs w
| str_cons d ds vs w ys w1 vs1 w2 vs2 w3 :
    mech_equiv_time m (PArr (Nd s vs)) conds lats L C D w = (Ok (PArr (Nd s ys)), w1) ->
    found vs ys ->
    mech_deg_vals m (PArr (Nd s (map (fun y => nadd y d) ys))) (PArr (Nd s vs)) conds lats L C D w1
      = (Ok (PArr (Nd s vs1)), w2) ->
    stresses m conds lats L C D s found ds vs1 w2 vs2 w3 ->
    stresses m conds lats L C D s found (d :: ds) vs w vs2 w3.

(** Two values that are the same as far as one sample is concerned: equal, or
    arrays of one shape with equal entries at [idx]. *)
Definition same_at (idx : list nat) (p q : pyval V) : Prop :=
  p = q \/ exists a b, p = PArr a /\ q = PArr b /\ nshape a = nshape b /\ aget a idx = aget b idx.
Definition same_args (idx : list nat) (d1 d2 : dict (pyval V)) : Prop :=
  forall x, match dget d1 x, dget d2 x with
            | Some p, Some q => same_at idx p q
            | None, None => True
            | _, _ => False
            end.
(** The equation's value for a sample depends only on that sample's arguments. *)
Definition local_at (f : eqn V) (s idx : list nat) (L C D : nat) : Prop :=
  forall args1 args2 w1 w2 d1 d2 w1' w2', same_args idx args1 args2 ->
    call_or_loop f args1 L C D w1 = (Ok d1, w1') -> call_or_loop f args2 L C D w2 = (Ok d2, w2') ->
    exists e1 e2, d1 = PArr e1 /\ d2 = PArr e2 /\ nshape e1 = s /\ nshape e2 = s /\ aget e1 idx = aget e2 idx.
End Spec.

(** Degraded parameter [p] uses mechanism object [c]. *)
Definition used_by (c : nat) (p : tu_prm) : Prop := tp_deg p = true /\ In c (tp_mechs p).

(** The unit of a mechanism object after construction of the device(s), without
    objects: own, else that of the first parameter using it, else the device's. *)
Definition resolved (own : option string) (prm dev : option string) : option string :=
  match own with
  | Some u => Some u
  | None =>
      match prm with
      | None | Some ""%string => match dev with None => Some "h"%string | Some u => Some u end
      | Some u => Some u
      end
  end.
