(** Specification of means, variances and correlations of generated samples.

    [Om] is the set of possible initial states of the random generators (the seeds and
    what the operating system supplies), [E] the expected value of a quantity that
    depends on it. *)
From Coq Require Import Reals List Lia Lra.
From Verif Require Import M_Base M_Num M_NumR M_Nd M_RandVar M_Latent M_Env S_Latent.
Import ListNotations.
Open Scope R_scope.

Section Expectation.
Context {Om : Type}.

Record expectation (E : (Om -> R) -> R) : Prop := {
  ex_one : E (fun _ => 1) = 1;
  ex_lin : forall a f g, E (fun o => a * f o + g o) = a * E f + E g;
  ex_pos : forall f, (forall o, 0 <= f o) -> 0 <= E f;
  ex_ext : forall f g, (forall o, f o = g o) -> E f = E g }.
Definition cov (E : (Om -> R) -> R) (f g : Om -> R) : R := E (fun o => f o * g o) - E f * E g.
Definition var (E : (Om -> R) -> R) (f : Om -> R) : R := cov E f f.
End Expectation.

(** Mean and variance of the distributions with the parameters of numpy, and with those
    of the library. *)
Definition np_mean (p : npdist R) : R :=
  match p with NNormal loc _ => loc | NGamma shape scale => shape * scale | NUniform low high => (low + high) / 2 end.
Definition np_var (p : npdist R) : R :=
  match p with NNormal _ scale => scale ^ 2 | NGamma shape scale => shape * scale ^ 2 | NUniform low high => (high - low) ^ 2 / 12 end.
Definition mean (d : dist R) : R :=
  match d with
  | DDeter v => v | DNormal mu _ => mu | DGamma alpha beta => alpha / beta | DUniform start stop => (start + stop) / 2
  end.
Definition variance (d : dist R) : R :=
  match d with
  | DDeter _ => 0 | DNormal _ sigma => sigma ^ 2 | DGamma alpha beta => alpha / beta ^ 2
  | DUniform start stop => (stop - start) ^ 2 / 12
  end.
Definition second (d : dist R) : R := variance d + mean d ^ 2.
(** The expected product of two values, which may be the same. *)
Definition pair_moment (same : bool) (d : dist R) : R := if same then second d else mean d ^ 2.

(** What numpy is asked for; nothing for a deterministic one. *)
Definition request (d : dist R) : option (npdist R) :=
  match d with
  | DDeter _ => None
  | DNormal mu sigma => Some (NNormal mu sigma)
  | DGamma alpha beta => Some (NGamma alpha (1 / beta))
  | DUniform start stop => Some (NUniform start stop)
  end.

Section Draws.
Context {Rg : Rng R}.

(** Draws one after the other: the generator and the distribution of each. *)
Fixpoint tape (plan : list (nat * npdist R)) (w : world) : list R :=
  match plan with
  | [] => []
  | (g, p) :: r => fst (rdraw p (w g)) :: tape r (fun i => if Nat.eqb i g then snd (rdraw p (w g)) else w i)
  end.

Context {Om : Type} (E : (Om -> R) -> R) (plan : list (nat * npdist R)) (w : Om -> world).
Definition draw (i : nat) (o : Om) : R := nth i (tape plan (w o)) 0.
(** Every draw has the mean and the variance of its distribution. *)
Definition distributed : Prop := forall i g p, nth_error plan i = Some (g, p) ->
  E (draw i) = np_mean p /\ var E (draw i) = np_var p.
(** No two draws are correlated. *)
Definition uncorrelated : Prop := forall i j, (i < length plan)%nat -> (j < length plan)%nat -> i <> j ->
  cov E (draw i) (draw j) = 0.
(** All draws are independent. *)
Fixpoint product (n : nat) (f : nat -> R) : R := match n with O => 1 | S k => product k f * f k end.
Definition independent : Prop := forall f : nat -> R -> R,
  E (fun o => product (length plan) (fun i => f i (draw i o))) =
  product (length plan) (fun i => E (fun o => f i (draw i o))).
End Draws.

(** A layer as the user defined it: the given distribution or the neutral element. *)
Definition layer_dist (t : vtype) (given : option (rv R)) : dist R :=
  match given with Some r => rv_dist r | None => DDeter (match t with Offset => 0 | Scaling => 1 end) end.
Definition layer_gen (given : option (rv R)) : nat := match given with Some r => rv_gen r | None => 0%nat end.
Definition layer_plan (t : vtype) (given : option (rv R)) (n : nat) : list (nat * npdist R) :=
  match request (layer_dist t given) with Some p => repeat (layer_gen given, p) n | None => [] end.
(** numpy takes the parameters, and a gamma distribution does not have rate 0. *)
Definition acceptable {Rg : Rng R} (given : option (rv R)) : Prop :=
  forall r, given = Some r ->
  (forall a b, rv_dist r = DGamma a b -> b <> 0) /\ (forall p, request (rv_dist r) = Some p -> rvalid p = true).

(** The draws of one call of gen_latent_vals, and of gen_env_vrtns. *)
Definition latent_plan (s : told R) (D C L : nat) : list (nat * npdist R) :=
  layer_plan (t_type s) (t_lot s) L ++ layer_plan (t_type s) (t_chp s) (L * C) ++ layer_plan (t_type s) (t_dev s) (L * C * D).
Definition env_plan (s : etold R) (D C L : nat) : list (nat * npdist R) :=
  layer_plan (et_type s) (et_bat s) 1 ++ layer_plan (et_type s) (et_chp s) (L * C) ++ layer_plan (et_type s) (et_dev s) (L * C * D).

(** Element [l][c][d] of the array that a call returns. *)
Definition at3 (C D : nat) (r : res (nd R)) (i : nat * nat * nat) : R :=
  match r with Ok a => nth ((fst (fst i) * C + snd (fst i)) * D + snd i) (ndata a) 0 | Err _ => 0 end.
Definition inside (D C L : nat) (i : nat * nat * nat) : Prop :=
  (fst (fst i) < L)%nat /\ (snd (fst i) < C)%nat /\ (snd i < D)%nat.
Definition same_lot (i j : nat * nat * nat) : bool := Nat.eqb (fst (fst i)) (fst (fst j)).
Definition same_chip (i j : nat * nat * nat) : bool := same_lot i j && Nat.eqb (snd (fst i)) (snd (fst j)).
Definition same_device (i j : nat * nat * nat) : bool := same_chip i j && Nat.eqb (snd i) (snd j).
Definition when (b : bool) (x : R) : R := if b then x else 0.

(** Every call returns an (L, C, D) array. *)
Definition gives_array {Om} (f : Om -> res (nd R)) (D C L : nat) : Prop :=
  forall o, exists a, f o = Ok a /\ nshape a = [L; C; D] /\ length (ndata a) = (L * C * D)%nat.
