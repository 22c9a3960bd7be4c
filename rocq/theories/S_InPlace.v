(** Specification notions for equations that run on arrays: what they may write to,
    and what a state of references shows. *)
From Verif Require Import M_Base M_Num M_Nd M_Time M_TestSpec M_Device M_Report M_Env M_Sim M_InPlace.
Open Scope nat_scope.

Section Spec.
Context {V : Type} `{NumOps V}.

(** The arrays in [P] are as they were. *)
Definition keeps (P : nat -> Prop) (h h' : heap V) : Prop :=
  length h <= length h' /\ forall a, P a -> a < length h -> nth_error h' a = nth_error h a.
Definition every : nat -> Prop := fun _ => True.
(** [a] is the array of times among the arguments. *)
Definition time_cell (args : dict (oval V)) (a : nat) : Prop := exists ks, dget args "time" = Some (OArr a ks).
Definition like_time (args : dict (pyval V)) (p : pyval V) : Prop :=
  match dget args "time", p with Some (PArr t), PArr b => nshape b = nshape t | _, _ => True end.

(** Run on arrays, the code [b] does what the equation [f] does with the values they
    show: same outcome, same random numbers.  It writes to no array it is given; or,
    if [tw], to the array of times, but then it must not raise ValueError, nor return
    an array of another shape. *)
Definition behaves (tw : bool) (f : eqn V) (b : impl V) : Prop :=
  forall args pargs h w, peekd h args = Ok pargs ->
  match hcall f b args h w, call f pargs w with
  | (Ok o, h', w1), (Ok p, w2) =>
      w1 = w2 /\ peek h' o = Ok p /\
      (keeps every h h' \/ tw = true /\ keeps (fun a => ~ time_cell args a) h h' /\ like_time pargs p)
  | (Err e, h', w1), (Err e', w2) =>
      e = e' /\ w1 = w2 /\
      (keeps every h h' \/ tw = true /\ keeps (fun a => ~ time_cell args a) h h' /\ e <> ValueError)
  | _, _ => False
  end.

(** All equations of a device do so; those of mechanisms may write to their times. *)
Definition code_behaves (d : device V) (code : role -> impl V) : Prop :=
  forall name q, In (name, q) d ->
  match q with
  | PDeg p => behaves false (lm_eqn (dp_own p)) (code (ROwn name)) /\
              behaves false (lm_eqn (dp_cond p)) (code (RCond name)) /\
              forall nm m, In (nm, m) (dp_mechs p) -> behaves true (lm_eqn (mc_mdl m)) (code (RMech name nm))
  | PCirc c => behaves false (lm_eqn c) (code (RCirc name))
  end.

(** What the references of a state show. *)
Definition shows_dd (h : heap V) (od : dict (dict (oval V))) (pd : dict (dict (pyval V))) : Prop :=
  Forall2 (fun x y => fst x = fst y /\ peekd h (snd x) = Ok (snd y)) od pd.
Definition shows_state (h : heap V) (os : ostate V) (st : simstate V) : Prop :=
  os_elapsed os = st_elapsed st /\
  peekd h (os_prm os) = Ok (st_prm st) /\ peekd h (os_prm0 os) = Ok (st_prm0 st) /\
  shows_dd h (os_mech os) (st_mech st) /\ shows_dd h (os_mech0 os) (st_mech0 st) /\
  shows_dd h (os_lat os) (st_lat st).

(** No latent value of a mechanism and no condition of a step is called 'time' (it
    would take the place of the time). *)
Definition time_free (st : simstate V) (steps : list (step V)) : Prop :=
  (forall q lats nm l, dget (st_lat st) q = Some lats -> dget lats nm = Some (PDict l) -> dget l "time" = None) /\
  forall s, In (SStrs s) steps -> dget (ss_conds s) "time" = None.

(** The same for the states that are generated for a device. *)
Definition latents_free (d : device V) : Prop := forall name p, In (name, PDeg p) d ->
  dget (lm_vars (dp_cond p)) "time" = None /\
  forall nm m, In (nm, m) (dp_mechs p) -> dget (lm_vars (mc_mdl m)) "time" = None.

(** The mechanisms of a parameter have different names (a dictionary). *)
Definition mechs_wf (d : device V) : Prop := forall name p, In (name, PDeg p) d -> dwf (dp_mechs p).

(** Run on arrays, [b] has the outcome of [f]; it may write where it likes. *)
Definition right (f : eqn V) (b : impl V) : Prop :=
  forall args pargs h w, peekd h args = Ok pargs ->
  match hcall f b args h w, call f pargs w with
  | (Ok o, h', w1), (Ok p, w2) => w1 = w2 /\ peek h' o = Ok p
  | (Err e, _, w1), (Err e', w2) => e = e' /\ w1 = w2
  | _, _ => False
  end.
Definition code_right (d : device V) (code : role -> impl V) : Prop :=
  forall name q, In (name, q) d ->
  match q with
  | PDeg p => right (lm_eqn (dp_own p)) (code (ROwn name)) /\
              right (lm_eqn (dp_cond p)) (code (RCond name)) /\
              forall nm m, In (nm, m) (dp_mechs p) -> right (lm_eqn (mc_mdl m)) (code (RMech name nm))
  | PCirc c => right (lm_eqn c) (code (RCirc name))
  end.

(** Three ways to write an equation: with new arrays only; computing in the array of
    an argument, as in [x += y; return x]; changing the array of an argument first. *)
Definition afresh (f : eqn V) : impl V := fun args =>
  hbind (loadd args) (fun p => hbind (hpure (e_body f p)) new).
Definition in_place (x : string) (f : eqn V) : impl V := fun args =>
  hbind (loadd args) (fun p => hbind (hpure (e_body f p)) (fun r =>
  match dget args x, dget p x, r with
  | Some (OArr a []), Some (PArr y), PArr z =>
      if list_eq_dec Nat.eq_dec (nshape y) (nshape z) then hbind (write a z) (fun _ => hret (OArr a [])) else new r
  | _, _, _ => new r
  end)).
Definition convert_first (x : string) (g : V -> V) (f : eqn V) : impl V := fun args =>
  hbind (loadd args) (fun p =>
  match dget args x, dget p x with
  | Some (OArr a []), Some (PArr y) => hbind (write a (amap g y)) (fun _ => hbind (hpure (e_body f p)) new)
  | _, _ => hbind (hpure (e_body f p)) new
  end).
End Spec.
