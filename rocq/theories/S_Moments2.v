(** Specification of means and correlations of the values of a generated state. *)
From Coq Require Import Reals List String Bool.
From Verif Require Import M_Base M_Num M_NumR M_Nd M_RandVar M_Latent M_Time M_TestSpec M_Device M_Report M_Env M_Sim S_Latent S_Moments.
Import ListNotations.
Open Scope R_scope.

(** Where a latent variable stands in a device: the parameter, the part of it and the
    name of the variable. *)
Inductive part := Own | Cond | Mech (m : string) | Init.
Record place := Place { pl_prm : string; pl_part : part; pl_var : string }.
Definition part_eqb (a b : part) : bool :=
  match a, b with Own, Own | Cond, Cond | Init, Init => true | Mech x, Mech y => String.eqb x y | _, _ => false end.
Definition place_eqb (a b : place) : bool :=
  String.eqb (pl_prm a) (pl_prm b) && part_eqb (pl_part a) (pl_part b) && String.eqb (pl_var a) (pl_var b).

(** The variables of a parameter, and those of a device, in the order in which they
    are sampled, with the number of devices on a chip. *)
Definition parts (q : prm R) : list (part * dict (lvar R)) :=
  match q with
  | PDeg p => (Cond, lm_vars (dp_cond p)) :: map (fun nm => (Mech (fst nm), lm_vars (mc_mdl (snd nm)))) (dp_mechs p) ++
              [(Own, lm_vars (dp_own p)); (Init, lm_vars (dp_init p))]
  | PCirc c => [(Own, lm_vars c)]
  end.
Record drawing := Drawing { dr_place : place; dr_count : nat; dr_var : lvar R }.
Definition drawings (d : device R) (counts : dict nat) : list drawing :=
  flat_map (fun kv => flat_map (fun pv => map (fun v => Drawing (Place (fst kv) (fst pv) (fst v))
                                                         (match dget counts (fst kv) with Some n => n | None => 0%nat end) (snd v))
                                              (snd pv)) (parts (snd kv))) d.

(** The draws of one variable, and of all. *)
Definition object_plan (o : lvar R) (D C L : nat) : list (nat * npdist R) :=
  layer_plan Offset (Some (lv_lot o)) L ++ layer_plan Offset (Some (lv_chp o)) (L * C) ++ layer_plan Offset (Some (lv_dev o)) (L * C * D).
Definition drawings_plan (l : list drawing) (C L : nat) : list (nat * npdist R) :=
  flat_map (fun x => object_plan (dr_var x) (dr_count x) C L) l.

(** Where the values are found in a state; an initial value is found as the value of
    the parameter. *)
Definition arr (x : option (pyval R)) : option (nd R) := match x with Some (PArr a) => Some a | _ => None end.
Definition sub (x : option (pyval R)) (k : string) : option (pyval R) := match x with Some (PDict d) => dget d k | _ => None end.
Definition found (st : simstate R) (pl : place) : option (nd R) :=
  match dget (st_lat st) (pl_prm pl) with
  | None => None
  | Some lats =>
      match pl_part pl with
      | Own => arr (dget lats (pl_var pl))
      | Cond => arr (sub (dget lats "cond"%string) (pl_var pl))
      | Mech m => arr (sub (dget lats m) (pl_var pl))
      | Init => arr (dget (st_prm st) (pl_prm pl))
      end
  end.
(** Initial values are found if the equation is the default one. *)
Definition in_state (d : device R) (pl : place) : Prop :=
  pl_part pl = Init -> exists p, dget d (pl_prm pl) = Some (PDeg p) /\ lm_eqn (dp_init p) = eqn_basic.

(** No name is used for two things. *)
Definition distinct_names (q : prm R) : Prop :=
  match q with
  | PDeg p => dwf (dp_mechs p) /\ ~ In "cond"%string (dkeys (dp_mechs p)) /\ dwf (lm_vars (dp_cond p)) /\ dwf (lm_vars (dp_own p)) /\
              dwf (lm_vars (dp_init p)) /\ (forall nm m, In (nm, m) (dp_mechs p) -> dwf (lm_vars (mc_mdl m))) /\
              (forall v, In v (dkeys (lm_vars (dp_own p))) -> v <> "cond"%string /\ ~ In v (dkeys (dp_mechs p)))
  | PCirc c => dwf (lm_vars c)
  end.
(** Equations for initial values draw no random numbers. *)
Definition quiet (f : eqn R) : Prop := forall a w, snd (e_body f a w) = w.
Definition samplable {G : Rng R} (o : lvar R) : Prop :=
  lv_op o <> None /\ acceptable (Some (lv_lot o)) /\ acceptable (Some (lv_chp o)) /\ acceptable (Some (lv_dev o)).
Record sampled_device {G : Rng R} (d : device R) (counts : dict nat) : Prop := {
  sd_wf : dwf d;
  sd_names : forall name q, In (name, q) d -> distinct_names q;
  sd_quiet : forall name p, In (name, PDeg p) d -> quiet (lm_eqn (dp_init p));
  sd_vars : forall x, In x (drawings d counts) -> samplable (dr_var x) }.

(** What the layers of a variable say about its values. *)
Definition var_mean (o : lvar R) : R :=
  let l := mean (rv_dist (lv_lot o)) in let c := mean (rv_dist (lv_chp o)) in let d := mean (rv_dist (lv_dev o)) in
  match lv_op o with
  | Some Offset => match lv_deter o with Some v => v | None => 0 end + l + c + d
  | Some Scaling => match lv_deter o with Some v => v | None => 1 end * l * c * d
  | None => 0
  end.
Definition var_cov (o : lvar R) (i j : nat * nat * nat) : R :=
  let l := rv_dist (lv_lot o) in let c := rv_dist (lv_chp o) in let d := rv_dist (lv_dev o) in
  match lv_op o with
  | Some Offset => when (same_lot i j) (variance l) + when (same_chip i j) (variance c) + when (same_device i j) (variance d)
  | Some Scaling =>
      match lv_deter o with Some v => v | None => 1 end ^ 2 *
      (pair_moment (same_lot i j) l * pair_moment (same_chip i j) c * pair_moment (same_device i j) d -
       mean l ^ 2 * mean c ^ 2 * mean d ^ 2)
  | None => 0
  end.

(** An element of the value found at a place, in the state that a call returns. *)
Definition state_sample (C : nat) (r : res (simstate R * dict nat)) (x : drawing) (i : nat * nat * nat) : R :=
  match r with
  | Ok sc => match found (fst sc) (dr_place x) with Some a => at3 C (dr_count x) (Ok a) i | None => 0 end
  | Err _ => 0
  end.

(** ** Readings *)

(** The first reading of a device in a table of measurements. *)
Definition is_row (name : string) (i : nat * nat * nat) (r : row R) : bool :=
  String.eqb (r_param r) name &&
  match r_lot r, r_chp r, r_dev r with
  | Some l, Some c, Some k => Nat.eqb l (fst (fst i)) && Nat.eqb c (snd (fst i)) && Nat.eqb k (snd i)
  | _, _, _ => false
  end.
Definition first_reading (name : string) (i : nat * nat * nat) (rows : list (row R)) : option R :=
  match find (is_row name i) rows with Some r => Some (r_val r) | None => None end.
Definition sim_reading (r : res (simstate R * report R)) (name : string) (i : nat * nat * nat) : R :=
  match r with Ok sr => match first_reading name i (rp_meas (snd sr)) with Some v => v | None => 0 end | Err _ => 0 end.

(** A parameter whose readings are its values: default equations, no shift, no
    instrument, and one latent variable [o] for the initial value. *)
Record plainly_read (e : env R) (d : device R) (name : string) (p : degprm R) (o : lvar R) : Prop := {
  pr_prm : dget d name = Some (PDeg p);
  pr_instm : dget e (name ++ "_instm") = None;
  pr_own : lm_eqn (dp_own p) = eqn_basic_sum;
  pr_cond : lm_eqn (dp_cond p) = eqn_const 0;
  pr_unitary : forall nm m, In (nm, m) (dp_mechs p) -> mc_unitary m = 0;
  pr_names : ~ In "mechs"%string (dkeys (dp_mechs p)) /\ ~ In "mechs"%string (dkeys (lm_vars (dp_own p)));
  pr_init : lm_eqn (dp_init p) = eqn_basic;
  pr_var : dget (lm_vars (dp_init p)) "init_val" = Some o }.
