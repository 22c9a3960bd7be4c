(** Properties of models built from latent variables: C68, C69. *)
From Coq Require Import QArith Lia.
From Verif Require Import M_Base M_Num M_Nd M_RandVar M_Latent M_Device M_LatentMdl M_Toy S_Latent S_Device S_LatentMdl
  L_Base L_Latent L_Nd L_Device L_LatentMdl T_Latent.
Open Scope nat_scope.

(** ** C68 *)

(** Building a model names nameless variables after the first keyword they are passed
    under and leaves everything else about every variable as it was; the model's
    variables are those objects. *)
Theorem C68_construction : forall V (O : NumOps V) (R : Rng V) f (objs : list (lvar V)) kwargs objs' r,
  lmdl_init f objs kwargs = (objs', r) -> ~ In ""%string (dkeys kwargs) -> (forall k i, In (k, i) kwargs -> i < length objs) ->
  length objs' = length objs /\
  (forall i o, nth_error objs i = Some o -> exists o', nth_error objs' i = Some o' /\ lv_name o' = named_after (lv_name o) kwargs i /\
     forall D C L w, gen_latent o' D C L w = gen_latent o D C L w) /\
  exists m, r = Ok m /\ lm_eqn m = match f with Some g => g | None => eqn_x end /\
    Forall2 (fun ki ko => fst ki = fst ko /\ nth_error objs' (snd ki) = Some (snd ko)) kwargs (lm_vars m).
Proof. intros V O R. exact lmdl_init_spec. Qed.
Print Assumptions C68_construction.

(** The model samples every variable as it was passed, in the order of the keywords. *)
Theorem C68_samples_variables_as_given : forall V (O : NumOps V) (R : Rng V) f (objs : list (lvar V)) kwargs objs' m vars0 D C L w,
  lmdl_init f objs kwargs = (objs', Ok m) -> ~ In ""%string (dkeys kwargs) ->
  Forall2 (fun ki ko => fst ki = fst ko /\ nth_error objs (snd ki) = Some (snd ko)) kwargs vars0 ->
  gen_latents m D C L w = gen_latents (LMdl (lm_eqn m) vars0) D C L w.
Proof.
  intros V O R f objs kwargs objs' m vars0 D C L w E Nk F.
  destruct (lmdl_init_spec _ _ _ _ _ E Nk) as (_ & A & m' & Em & _ & G).
  { intros k i I. clear - F I. induction F as [|[k1 i1] [k2 o2] r r' [_ Q] F IH]; [destruct I|]. destruct I as [I|I]; auto.
    injection I as -> ->. apply nth_error_Some. cbn in Q. congruence. }
  injection Em as <-. unfold gen_latents. cbn [lm_vars]. apply gen_latents_ext.
  assert (A' : forall i o, nth_error objs i = Some o -> exists o', nth_error objs' i = Some o' /\ forall D C L w, gen_latent o' D C L w = gen_latent o D C L w).
  { intros i o Ho. destruct (A i o Ho) as (o' & A1 & _ & A3). now exists o'. }
  clear E Nk A. generalize dependent vars0. induction G as [|[k i] [k' o'] r r' [E1 E2] G IH]; intros vars0 F; inversion F as [|? [k2 o2] ? r2 [F1 F2] F3]; subst; constructor; auto.
  cbn [fst snd] in *. split; [congruence|]. destruct (A' i o2 F2) as (o3 & A1 & A3). rewrite E2 in A1. injection A1 as ->. apply A3.
Qed.
Print Assumptions C68_samples_variables_as_given.

(** One object passed under two keywords is sampled once for each, so the two values
    differ, and it bears the name of the first. *)
Definition one_var : res (lvar Q) := lvar_init (Some ex_dev) None None None None "offset".
Theorem C68_shared_variable_refuted : exists (o : lvar Q) m w lats a b w',
  one_var = Ok o /\ snd (lmdl_init None [o] [("a", 0); ("b", 0)]%string) = Ok m /\
  gen_latents m 1 1 1 w = (Ok lats, w') /\ dget lats "a" = Some a /\ dget lats "b" = Some b /\ a <> b /\
  map (fun ko => lv_name (snd ko)) (lm_vars m) = [Some "a"; Some "a"]%string.
Proof.
  do 2 eexists. exists ex_w. do 4 eexists. split; [reflexivity|]. split; [reflexivity|]. split; [vm_compute; reflexivity|].
  split; [reflexivity|]. split; [reflexivity|]. split; [discriminate|reflexivity].
Qed.
Print Assumptions C68_shared_variable_refuted.

(** Distinct variables can be exported under one name: 'a' with a chip layer and
    'a_chp'. *)
Theorem C68_export_names_distinct_refuted : exists (o1 o2 : lvar Q) m x y o1' o2' c,
  lvar_init (Some ex_dev) (Some ex_chp) None None None "offset" = Ok o1 /\ one_var = Ok o2 /\
  snd (lmdl_init None [o1; o2] [("a", 0); ("a_chp", 1)]%string) = Ok m /\
  option_map (fun o => cbi_export o "pymc") (dget (lm_vars m) "a") = Some (Ok x, o1') /\
  option_map (fun o => cbi_export o "pymc") (dget (lm_vars m) "a_chp") = Some (Ok y, o2') /\
  cbi_chp x = Some c /\ form_name c = form_name (cbi_dev y).
Proof.
  do 8 eexists. split; [reflexivity|]. split; [reflexivity|]. split; [reflexivity|]. split; [vm_compute; reflexivity|].
  split; [vm_compute; reflexivity|]. split; reflexivity.
Qed.
Print Assumptions C68_export_names_distinct_refuted.

Example C68_example : exists o1 o2 m objs,
  lvar_init (Some ex_dev) None None None None "offset" = Ok o1 /\ lvar_init (Some ex_chp) None None None (Some "kept"%string) "offset" = Ok o2 /\
  lmdl_init None [o1; o2] [("b", 1); ("a", 0)]%string = (objs, Ok m) /\
  map (fun ko => (fst ko, lv_name (snd ko))) (lm_vars m) = [("b", Some "kept"); ("a", Some "a")]%string /\
  map lv_name objs = [Some "a"; Some "kept"]%string.
Proof. do 4 eexists. split; [reflexivity|]. split; [reflexivity|]. split; [reflexivity|]. split; reflexivity. Qed.

(** ** C69 *)

(** Only a named model with observations for its own output can be exported, and only
    to pymc; its equation is then given the observed conditions and, for names not
    observed, the exported latent variables; the spread of the output is 1. *)
Theorem C69_successful_export : forall V (O : NumOps V) name (m : lmdl V) target obs out m',
  (forall o, obs = Some o -> NoDup (dkeys o)) -> mdl_export name m target obs = (Ok out, m') ->
  exists n o v, target = "pymc"%string /\ name = Some n /\ obs = Some o /\ dget o n = Some v /\
    co_name out = n /\ co_obs out = v /\ co_sigma out = 1%Q /\ lm_eqn m' = lm_eqn m /\
    (forall k, match dget (lm_vars m) k, dget (lm_vars m') k with Some a, Some b => b = snd (cbi_export a target) | None, None => True | _, _ => False end) /\
    (forall k p, k <> n -> dget o k = Some p -> dget (co_args out) k = Some (AObs p)) /\
    (forall k, k = n \/ dget o k = None ->
       match dget (lm_vars m) k with
       | Some a => exists x, fst (cbi_export a target) = Ok x /\ dget (co_args out) k = Some (ALatent x)
       | None => dget (co_args out) k = None
       end) /\
    accepts (lm_eqn m) (dkeys (co_args out)).
Proof. intros V O. exact mdl_export_ok. Qed.
Print Assumptions C69_successful_export.
Theorem C69_export_succeeds : forall V (O : NumOps V) n (m : lmdl V) obs v,
  NoDup (dkeys obs) -> (forall k o, In (k, o) (lm_vars m) -> exists x o', cbi_export o "pymc" = (Ok x, o')) ->
  dget obs n = Some v ->
  accepts (lm_eqn m) (dkeys (lm_vars m) ++ filter (fun k => negb (String.eqb k n)) (dkeys obs)) ->
  exists out m', mdl_export (Some n) m "pymc" (Some obs) = (Ok out, m').
Proof. intros V O. exact mdl_export_succeeds. Qed.
Print Assumptions C69_export_succeeds.

(** An export reaches the variables in order, up to the first that fails; this one
    keeps what its own export did to it (see C61), the later ones are untouched. *)
Theorem C69_variables_after_export : forall V (O : NumOps V) name (m : lmdl V) target obs r m',
  mdl_export name m target obs = (r, m') ->
  let after := map (fun ko : string * lvar V => (fst ko, snd (cbi_export (snd ko) target))) in
  let fine := fun ko : string * lvar V => exists x, fst (cbi_export (snd ko) target) = Ok x in
  lm_eqn m' = lm_eqn m /\
  ((Forall fine (lm_vars m) /\ lm_vars m' = after (lm_vars m)) \/
   exists front k o back e o', lm_vars m = front ++ (k, o) :: back /\ Forall fine front /\ cbi_export o target = (Err e, o') /\
     r = Err e /\ lm_vars m' = after front ++ (k, o') :: back).
Proof. intros V O. exact mdl_export_vars. Qed.
Print Assumptions C69_variables_after_export.

(** In particular the defaults fail, and pyro always does. *)
Theorem C69_default_observations_fail : forall V (O : NumOps V) name (m : lmdl V) target,
  (forall k o, In (k, o) (lm_vars m) -> exists x o', cbi_export o target = (Ok x, o')) ->
  fst (mdl_export name m target None) = Err TypeError.
Proof.
  intros V O name m target Hx. unfold mdl_export. destruct (export_vars_all target (lm_vars m) Hx) as [vals Ev].
  destruct (export_vars target (lm_vars m)) as [d vars']. cbn [fst] in *. now subst d.
Qed.
Print Assumptions C69_default_observations_fail.
Theorem C69_pyro_fails : forall V (O : NumOps V) name (m : lmdl V) obs,
  (forall o, obs = Some o -> NoDup (dkeys o)) -> exists e, fst (mdl_export name m "pyro" obs) = Err e.
Proof.
  intros V O name m obs ND. destruct (mdl_export name m "pyro" obs) as [[out|e] m'] eqn:E; [|now exists e].
  apply mdl_export_ok in E as (n & o & v & Q & _); auto. discriminate.
Qed.
Print Assumptions C69_pyro_fails.

(** A model y = k * temp: exported for pymc; with an observation called 'k' the latent
    variable is not used. *)
Definition cal_mdl : res (lmdl Q) :=
  rbind one_var (fun o => snd (lmdl_init (Some (Eqn ["k"; "temp"]%string [] None (fun a => lift (rbind (dgetE a "k") (fun k => rbind (dgetE a "temp") (fun t => pmap2 nmul k t)))))) [o] [("k"%string, 0)])).
Example C69_example : exists m m' x,
  cal_mdl = Ok m /\
  mdl_export (Some "y"%string) m "pymc" (Some [("temp", PNum 300%Q); ("y", PNum 7%Q)]%string) =
    (Ok (CbiOut "y" [("k", ALatent x); ("temp", AObs (PNum 300%Q))]%string 1 (PNum 7%Q)), m') /\
  fst (mdl_export (Some "y"%string) m "pymc" (Some [("temp", PNum 300%Q); ("k", PNum 2%Q); ("y", PNum 7%Q)]%string)) =
    Ok (CbiOut "y" [("k", AObs (PNum 2%Q)); ("temp", AObs (PNum 300%Q))]%string 1 (PNum 7%Q)) /\
  fst (mdl_export (Some "y"%string) m "pymc" None) = Err TypeError /\
  fst (mdl_export (Some "y"%string) m "pyro" (Some [("temp", PNum 300%Q); ("y", PNum 7%Q)]%string)) = Err AttributeError /\
  fst (mdl_export None m "pymc" (Some [("temp", PNum 300%Q)]%string)) = Err KeyError /\
  fst (mdl_export (Some "y"%string) m "pymc" (Some [("y", PNum 300%Q)]%string)) = Err TypeError.
Proof. do 3 eexists. split; [reflexivity|]. split; [vm_compute; reflexivity|]. vm_compute. repeat split. Qed.

(** A failed export of a model changes the values its variables have in simulations. *)
Definition two_vars : res (lmdl Q) :=
  rbind one_var (fun o1 =>
  rbind (lvar_init (Some ex_dev) (Some (Rv 3 (DDeter 1%Q) None)) None (Some 5%Q) None "offset") (fun o2 =>
  rbind (lvar_init (Some ex_dev) None None (Some 5%Q) None "offset") (fun o3 =>
    snd (lmdl_init None [o1; o2; o3] [("a", 0); ("b", 1); ("c", 2)]%string)))).
Theorem C69_failed_export_refuted : exists (m m' : lmdl Q) obs w a b,
  two_vars = Ok m /\ mdl_export (Some "y"%string) m "pymc" obs = (Err NotImplementedErr, m') /\
  dget (lm_vars m') "c" = dget (lm_vars m) "c" /\
  fst (gen_latents m 1 1 1 w) = Ok a /\ fst (gen_latents m' 1 1 1 w) = Ok b /\ dget a "b" <> dget b "b".
Proof.
  do 2 eexists. exists (Some [("y"%string, PNum 1%Q)]), ex_w. do 2 eexists. split; [reflexivity|]. split; [vm_compute; reflexivity|].
  split; [reflexivity|]. split; [vm_compute; reflexivity|]. split; [vm_compute; reflexivity|]. discriminate.
Qed.
Print Assumptions C69_failed_export_refuted.
