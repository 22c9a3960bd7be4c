(** Specification of distributions: how each library defines the parameters it is
    given, and the elementary statistics of finite samples. *)
From Coq Require Import Reals Lra.
From Verif Require Import M_Base M_Num M_NumR M_RandVar M_Latent.
Open Scope R_scope.

(** Mean and variance according to each library's documentation. *)
Definition np_mean (d : npdist R) : R :=
  match d with NNormal loc _ => loc | NGamma k th => k * th | NUniform lo hi => (lo + hi) / 2 end.
Definition np_var (d : npdist R) : R :=
  match d with NNormal _ sc => sc ^ 2 | NGamma k th => k * th ^ 2 | NUniform lo hi => (hi - lo) ^ 2 / 12 end.
Definition pymc_mean (d : pymcdist R) : R :=
  match d with MNormal mu _ => mu | MGamma a b => a / b | MUniform lo up => (lo + up) / 2 end.
Definition pymc_var (d : pymcdist R) : R :=
  match d with MNormal _ s => s ^ 2 | MGamma a b => a / b ^ 2 | MUniform lo up => (up - lo) ^ 2 / 12 end.
Definition pyro_mean (d : pyrodist R) : R :=
  match d with YNormal loc _ => loc | YGamma c r => c / r | YUniform lo hi => (lo + hi) / 2 end.
Definition pyro_var (d : pyrodist R) : R :=
  match d with YNormal _ sc => sc ^ 2 | YGamma c r => c / r ^ 2 | YUniform lo hi => (hi - lo) ^ 2 / 12 end.

(** Densities; the factor Gamma(shape), the same in all libraries, is left out. *)
Definition np_density (d : npdist R) (x : R) : R :=
  match d with
  | NNormal loc sc => exp (- (x - loc) ^ 2 / (2 * sc ^ 2)) / (sc * sqrt (2 * PI))
  | NGamma k th => if Rlt_dec 0 x then Rpower x (k - 1) * exp (- x / th) / Rpower th k else 0
  | NUniform lo hi => if Rle_dec lo x then if Rle_dec x hi then 1 / (hi - lo) else 0 else 0
  end.
Definition pymc_density (d : pymcdist R) (x : R) : R :=
  match d with
  | MNormal mu s => sqrt (/ s ^ 2 / (2 * PI)) * exp (- (/ s ^ 2) / 2 * (x - mu) ^ 2)
  | MGamma a b => if Rlt_dec 0 x then Rpower b a * Rpower x (a - 1) * exp (- b * x) else 0
  | MUniform lo up => if Rle_dec lo x then if Rle_dec x up then 1 / (up - lo) else 0 else 0
  end.
Definition pyro_density (d : pyrodist R) (x : R) : R :=
  match d with
  | YNormal loc sc => exp (- (x - loc) ^ 2 / (2 * sc ^ 2)) / (sc * sqrt (2 * PI))
  | YGamma c r => if Rlt_dec 0 x then Rpower r c * Rpower x (c - 1) * exp (- r * x) else 0
  | YUniform lo hi => if Rle_dec lo x then if Rle_dec x hi then 1 / (hi - lo) else 0 else 0
  end.

(** Parameters each library accepts. *)
Definition admissible (d : dist R) : Prop :=
  match d with
  | DDeter _ => False
  | DNormal _ sigma => 0 < sigma
  | DGamma alpha beta => 0 < alpha /\ 0 < beta
  | DUniform a b => a < b
  end.

(** Mean and variance of a finite sample. *)
Fixpoint rsum (l : list R) : R := match l with [] => 0 | x :: r => x + rsum r end.
Definition mean (l : list R) : R := rsum l / INR (length l).
Definition var (l : list R) : R := rsum (map (fun x => (x - mean l) ^ 2) l) / INR (length l).
