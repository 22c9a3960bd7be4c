(** Property C87: optional packages. *)
From Coq Require Import Reals Lra QArith.
From Verif Require Import M_Base M_Num M_NumR M_Nd M_RandVar M_Latent M_Device M_LatentMdl M_Import M_Toy S_Import L_Import.
Open Scope nat_scope.

(** ** C87 *)
Theorem C87_library_loads : forall sys,
  (exists mods, import_all sys = Gives mods) <->
  (forall m e, In m ["pymc"; "pyro"; "pyro.distributions"; "torch"]%string -> sys m <> Crashes e).
Proof. exact import_loads. Qed.
Print Assumptions C87_library_loads.

Theorem C87_installed : forall V (O : NumOps V) sys mods target,
  import_all sys = Gives mods -> framework target -> first_missing sys target = None ->
  (forall o : lvar V, cbi_export' mods o target = (of_res (fst (cbi_export o target)), snd (cbi_export o target))) /\
  (forall name (m : lmdl V) observed, mdl_export' mods name m target observed =
     (of_res (fst (mdl_export name m target observed)), snd (mdl_export name m target observed))).
Proof.
  intros V O sys mods target E Ft N. split.
  - intros o. exact (export_installed sys mods target o E Ft N).
  - intros name m observed. exact (model_installed sys mods target name m observed E Ft N).
Qed.
Print Assumptions C87_installed.

Theorem C87_missing_package : forall V (O : NumOps V) sys mods target m p (o : lvar V),
  import_all sys = Gives mods -> framework target -> first_missing sys target = Some (m, p) -> exportable o ->
  cbi_export' mods o target = (Fails (ImportErr (message m p)), if String.eqb m "torch" then o else moved o).
Proof. intros V O. exact export_missing. Qed.
Print Assumptions C87_missing_package.

Theorem C87_missing_package_model : forall V (O : NumOps V) sys mods target m p name (md : lmdl V) observed,
  import_all sys = Gives mods -> framework target -> first_missing sys target = Some (m, p) ->
  Forall (fun kv => exportable (snd kv)) (lm_vars md) -> lm_vars md <> [] ->
  fst (mdl_export' mods name md target observed) = Fails (ImportErr (message m p)).
Proof. intros V O. exact model_missing. Qed.
Print Assumptions C87_missing_package_model.

Theorem C87_repeated_attempts : forall sys mods target m p k (o : lvar R) v mu sigma,
  import_all sys = Gives mods -> framework target -> first_missing sys target = Some (m, p) -> m <> "torch"%string ->
  lv_devf o = true -> lv_deter o = Some v -> v <> 0%R -> rv_dist (lv_dev o) = DNormal mu sigma ->
  attempts mods k target o =
  with_dist o (DNormal (match lv_type o with Some Scaling => v ^ k * mu | _ => INR k * v + mu end) sigma)%R.
Proof. intros sys mods target m p k. exact (attempts_normal sys mods target m p k). Qed.
Print Assumptions C87_repeated_attempts.

(** A system without pymc, and one with pyro but not torch. *)
Definition no_pymc (m : string) : import := if String.eqb m "pymc" then NotFound else Imports.
Definition no_torch (m : string) : import := if String.eqb m "torch" then NotFound else Imports.
Definition i_var (deter : option Q) : lvar Q := LVar (Some "x"%string) (Some Offset) deter 0%Q (Some Offset)
  (Rv 1 (DNormal 10 1)%Q (Some "x"%string)) true (Rv 0 (DDeter 0%Q) None) false (Rv 0 (DDeter 0%Q) None) false.
Example C87_example :
  exists mods, import_all no_pymc = Gives mods /\ first_missing no_pymc "pymc" = Some ("pymc", "pymc")%string /\
  first_missing no_pymc "pyro" = None /\ first_missing no_torch "pyro" = Some ("torch", "torch")%string /\
  exportable (i_var (Some 5%Q)) /\
  cbi_export' mods (i_var (Some 5%Q)) "pymc" =
    (Fails (ImportErr "Trying to use a feature that requires the optional pymc module. Please install or fix package ""pymc"" first."),
     moved (i_var (Some 5%Q))) /\
  moved (i_var None) = i_var None /\ rv_dist (lv_dev (moved (i_var (Some 5%Q)))) = (DNormal 15 1)%Q /\
  rv_dist (lv_dev (attempts mods 3 "pymc" (i_var (Some 5%Q)))) = (DNormal 25 1)%Q.
Proof.
  eexists. split; [reflexivity|]. split; [reflexivity|]. split; [reflexivity|]. split; [reflexivity|].
  split; [split; [reflexivity|right; right; exists 10%Q, 1%Q; reflexivity]|].
  repeat split; reflexivity.
Qed.

(** The failed export changes what is sampled afterwards. *)
Theorem C87_harmless_failure_refuted : exists sys mods (o o' : lvar Q) x w a b,
  import_all sys = Gives mods /\ cbi_export' mods o "pymc" = (Fails (ImportErr x), o') /\
  fst (gen_latent o 1 1 1 w) = Ok a /\ fst (gen_latent o' 1 1 1 w) = Ok b /\ a <> b.
Proof.
  exists no_pymc. do 1 eexists. exists (i_var (Some 5%Q)). do 2 eexists. exists (fun g => 10 * g). do 2 eexists.
  split; [reflexivity|]. split; [reflexivity|]. split; [vm_compute; reflexivity|]. split; [vm_compute; reflexivity|]. discriminate.
Qed.
Print Assumptions C87_harmless_failure_refuted.
