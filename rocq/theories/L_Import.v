(** Lemmas for C87: optional packages. *)
From Coq Require Import Reals Lra QArith Qreals RMicromega.
From Flocq Require Import Core.
From Verif Require Import M_Base M_Num M_NumR M_Nd M_RandVar M_Latent M_Device M_LatentMdl M_Import S_Import L_Base.
Open Scope string_scope.

Lemma import_shape sys mods : import_all sys = Gives mods ->
  let st m p := match sys m with NotFound => FailedImport (message m p) | _ => Loaded end in
  m_pymc mods = st "pymc" "pymc" /\ m_pyro mods = st "pyro" "pyro-ppl" /\
  m_dist mods = st "pyro.distributions" "pyro-ppl" /\ m_torch mods = st "torch" "torch".
Proof.
  unfold import_all, on_demand_import.
  destruct (sys "pymc"), (sys "pyro"), (sys "pyro.distributions"), (sys "torch"); cbn [obind]; try discriminate;
    intros E; injection E as <-; repeat split.
Qed.

Lemma import_loads sys :
  (exists mods, import_all sys = Gives mods) <->
  (forall m e, In m ["pymc"; "pyro"; "pyro.distributions"; "torch"] -> sys m <> Crashes e).
Proof.
  unfold import_all, on_demand_import. split.
  - intros [mods E] m e Hm C. destruct Hm as [<-|[<-|[<-|[<-|[]]]]]; rewrite C in E; cbn [obind] in E.
    + discriminate.
    + destruct (sys "pymc"); discriminate.
    + destruct (sys "pymc"), (sys "pyro"); discriminate.
    + destruct (sys "pymc"), (sys "pyro"), (sys "pyro.distributions"); discriminate.
  - intros N.
    assert (C : forall m, In m ["pymc"; "pyro"; "pyro.distributions"; "torch"] -> sys m = Imports \/ sys m = NotFound).
    { intros m Hm. destruct (sys m) as [| |e] eqn:E; auto. exfalso. exact (N m e Hm E). }
    destruct (C "pymc" ltac:(cbn; tauto)) as [-> | ->], (C "pyro" ltac:(cbn; tauto)) as [-> | ->],
             (C "pyro.distributions" ltac:(cbn; tauto)) as [-> | ->], (C "torch" ltac:(cbn; tauto)) as [-> | ->];
      cbn [obind]; eauto.
Qed.

Section Import.
Context {V : Type} `{O : NumOps V}.

(** What a framework needs is there. *)
Lemma nothing_missing sys mods target : import_all sys = Gives mods -> framework target -> first_missing sys target = None ->
  if String.eqb target "pymc" then m_pymc mods = Loaded
  else m_pyro mods = Loaded /\ m_dist mods = Loaded /\ m_torch mods = Loaded.
Proof.
  intros E Ft N. apply import_shape in E as (E1 & E2 & E3 & E4). unfold first_missing, needs, lacks in N.
  destruct Ft as [-> | ->]; cbn [String.eqb Ascii.eqb Bool.eqb find fst] in *; rewrite ?E1, ?E2, ?E3, ?E4.
  - now destruct (sys "pymc").
  - destruct (sys "torch"), (sys "pyro"), (sys "pyro.distributions"); try discriminate; auto.
Qed.

Lemma export_installed sys mods target (o : lvar V) :
  import_all sys = Gives mods -> framework target -> first_missing sys target = None ->
  cbi_export' mods o target = (of_res (fst (cbi_export o target)), snd (cbi_export o target)).
Proof.
  intros E Ft N. pose proof (nothing_missing _ _ _ E Ft N) as L.
  unfold cbi_export', cbi_export. destruct (negb (lv_devf o)); [reflexivity|].
  assert (G : forall r : rv V, get_cbi_form' mods r target = of_res (get_cbi_form r target)).
  { intros r. unfold get_cbi_form'. destruct Ft as [-> | ->]; cbn [String.eqb Ascii.eqb Bool.eqb] in *.
    - now rewrite L.
    - destruct L as (-> & -> & _). reflexivity. }
  assert (T : (if String.eqb target "pyro" then attribute (m_torch mods) else Gives tt) = Gives tt).
  { destruct Ft as [-> | ->]; cbn [String.eqb Ascii.eqb Bool.eqb] in *; [reflexivity|]. destruct L as (_ & _ & ->). reflexivity. }
  assert (P : forall b, (if (String.eqb target "pymc" && b)%bool then attribute (m_pymc mods) else Gives tt) = Gives tt).
  { intros b. destruct Ft as [-> | ->]; cbn [String.eqb Ascii.eqb Bool.eqb andb] in *; [|reflexivity]. rewrite L. now destruct b. }
  rewrite T. destruct (negb (String.eqb target "pymc" || String.eqb target "pyro")); [reflexivity|].
  cbv zeta.
  match goal with |- context [match ?x with Ok _ => _ | Err _ => _ end] => destruct x as [[old o1]|e] end; [|reflexivity].
  rewrite P, !G.
  destruct (get_cbi_form (lv_dev o1) target) as [d|e]; cbn [of_res obind rbind]; [|reflexivity].
  destruct (lv_chpf o1), (lv_lotf o1); cbn [of_res obind rbind];
    repeat match goal with |- context [get_cbi_form ?r target] => destruct (get_cbi_form r target); cbn [of_res obind rbind fst snd]; try reflexivity end;
    (destruct old as [c|]; [|reflexivity]); (destruct (truthy c); [|reflexivity]); destruct (set_centre _ _ _); reflexivity.
Qed.

Lemma vars_installed sys mods target (vars : dict (lvar V)) :
  import_all sys = Gives mods -> framework target -> first_missing sys target = None ->
  export_vars' mods target vars = (of_res (fst (export_vars target vars)), snd (export_vars target vars)).
Proof.
  intros E Ft N. induction vars as [|[k o] r IH]; [reflexivity|]. cbn [export_vars' export_vars].
  rewrite (export_installed sys mods target o E Ft N). destruct (cbi_export o target) as [[x|e] o']; cbn [of_res fst snd]; [|reflexivity].
  rewrite IH. destruct (export_vars target r) as [[d|e] r']; reflexivity.
Qed.
Lemma model_installed sys mods target name (m : lmdl V) observed :
  import_all sys = Gives mods -> framework target -> first_missing sys target = None ->
  mdl_export' mods name m target observed =
  (of_res (fst (mdl_export name m target observed)), snd (mdl_export name m target observed)).
Proof.
  intros E Ft N. pose proof (nothing_missing _ _ _ E Ft N) as L. unfold mdl_export', mdl_export.
  rewrite (vars_installed sys mods target _ E Ft N). destruct (export_vars target (lm_vars m)) as [[vals|e] vars'];
    cbn [fst snd of_res obind rbind]; [|reflexivity].
  f_equal. destruct observed as [obs|]; [|reflexivity]. cbv zeta.
  match goal with |- (if ?b then _ else _) = _ => destruct b end; [|reflexivity].
  destruct Ft as [-> | ->]; cbn [String.eqb Ascii.eqb Bool.eqb] in *.
  - rewrite L. cbn [attribute obind]. destruct name as [n|]; [|reflexivity]. now destruct (dgetE obs n).
  - destruct L as (-> & -> & _). cbn [attribute obind]. destruct name as [n|]; [|reflexivity]. now destruct (dgetE obs n).
Qed.

(** Something is missing. *)
Lemma export_missing sys mods target m p (o : lvar V) :
  import_all sys = Gives mods -> framework target -> first_missing sys target = Some (m, p) -> exportable o ->
  cbi_export' mods o target = (Fails (ImportErr (message m p)), if String.eqb m "torch" then o else moved o).
Proof.
  intros E Ft N (Dv & Ex). pose proof (import_shape _ _ E) as (E1 & E2 & E3 & E4).
  unfold cbi_export'. rewrite Dv. cbn [negb].
  unfold first_missing, needs, lacks in N.
  assert (Pre : match lv_deter o with
      | Some v =>
          if truthy v then
            rbind (get_centre (lv_dev o)) (fun c =>
            rbind (set_centre (lv_dev o) v (Some (op_of match lv_type o with Some Scaling => Scaling | _ => Offset end)))
              (fun r => Ok (Some c, with_dev o r)))
          else Ok (None, o)
      | None => Ok (None, o)
      end = Ok (match lv_deter o with Some v => if truthy v then match rv_dist (lv_dev o) with DNormal mu _ => Some mu | _ => None end else None
                | None => None end, moved o)).
  { unfold moved, truthy. destruct (lv_deter o) as [v|] eqn:Ed; [|reflexivity].
    destruct (neqb v n0) eqn:Ev; cbn [negb].
    - now destruct (rv_dist (lv_dev o)).
    - destruct Ex as [Ex|[(v' & Ex & Z)|(mu & sg & Ex)]]; [discriminate|injection Ex as <-; congruence|].
      unfold get_centre, set_centre. rewrite Ex. cbn [rbind].
      unfold with_dev, with_dist. rewrite Ed. destruct (lv_type o) as [[]|]; reflexivity. }
  destruct Ft as [-> | ->]; cbn [String.eqb Ascii.eqb Bool.eqb orb negb andb find fst] in *.
  - destruct (sys "pymc"); try discriminate. injection N as <- <-. cbv zeta. rewrite Pre.
    unfold get_cbi_form'. cbn [String.eqb Ascii.eqb Bool.eqb]. rewrite E1. reflexivity.
  - destruct (sys "torch") eqn:Et.
    2:{ injection N as <- <-. rewrite E4. reflexivity. }
    all: rewrite E4; cbn [attribute]; cbv zeta; rewrite Pre; unfold get_cbi_form'; cbn [String.eqb Ascii.eqb Bool.eqb].
    + destruct (sys "pyro") eqn:Ep.
      * destruct (sys "pyro.distributions") eqn:Eq; try discriminate. injection N as <- <-. rewrite E2, E3. reflexivity.
      * injection N as <- <-. rewrite E2. reflexivity.
      * destruct (sys "pyro.distributions") eqn:Eq; try discriminate. injection N as <- <-. rewrite E2, E3. reflexivity.
    + destruct (sys "pyro") eqn:Ep.
      * destruct (sys "pyro.distributions") eqn:Eq; try discriminate. injection N as <- <-. rewrite E2, E3. reflexivity.
      * injection N as <- <-. rewrite E2. reflexivity.
      * destruct (sys "pyro.distributions") eqn:Eq; try discriminate. injection N as <- <-. rewrite E2, E3. reflexivity.
Qed.

(** A model cannot be exported to a framework of which a module other than torch is
    missing, whatever its variables. *)
Lemma vars_missing sys mods target m p (vars : dict (lvar V)) :
  import_all sys = Gives mods -> framework target -> first_missing sys target = Some (m, p) -> vars <> [] ->
  Forall (fun kv => exportable (snd kv)) vars ->
  fst (export_vars' mods target vars) = Fails (ImportErr (message m p)).
Proof.
  intros E Ft N Nn Al. destruct vars as [|[k o] r]; [now destruct Nn|]. apply Forall_cons_iff in Al as [Al _].
  cbn [export_vars' snd] in *. now rewrite (export_missing _ _ _ _ _ _ E Ft N Al).
Qed.
Lemma model_missing sys mods target m p name (md : lmdl V) observed :
  import_all sys = Gives mods -> framework target -> first_missing sys target = Some (m, p) ->
  Forall (fun kv => exportable (snd kv)) (lm_vars md) -> lm_vars md <> [] ->
  fst (mdl_export' mods name md target observed) = Fails (ImportErr (message m p)).
Proof.
  intros E Ft N Al Nn. unfold mdl_export'.
  pose proof (vars_missing _ _ _ _ _ _ E Ft N Nn Al) as Ev.
  destruct (export_vars' mods target (lm_vars md)) as [vals vars']. cbn [fst] in Ev. subst vals. reflexivity.
Qed.
End Import.

(** Repeated attempts. *)
Lemma attempts_normal sys mods target m p k : forall (o : lvar R) v mu sigma,
  import_all sys = Gives mods -> framework target -> first_missing sys target = Some (m, p) -> m <> "torch" ->
  lv_devf o = true -> lv_deter o = Some v -> v <> 0%R -> rv_dist (lv_dev o) = DNormal mu sigma ->
  attempts mods k target o =
  with_dist o (DNormal (match lv_type o with Some Scaling => v ^ k * mu | _ => INR k * v + mu end) sigma)%R.
Proof.
  induction k as [|k IH]; intros o v mu sigma E Ft N Nt Dv Ed Nv Em.
  - cbn [attempts]. unfold with_dist. destruct o as [nm ty dt un op dev df chp cf lot lf]; cbn in *. destruct dev as [g d n]. cbn in *. subst d.
    f_equal. f_equal. destruct ty as [[]|]; f_equal; ring.
  - cbn [attempts]. rewrite (export_missing _ _ _ _ _ _ E Ft N).
    2:{ split; [exact Dv|]. right; right; eauto. }
    destruct (String.eqb_spec m "torch") as [|_]; [contradiction|]. cbn [snd].
    assert (Nz : neqb v n0 = false).
    { change (Req_bool v (Q2R 0) = false). apply Req_bool_false. rewrite RMicromega.Q2R_0. exact Nv. }
    unfold moved. rewrite Ed, Em, Nz.
    rewrite (IH _ v (match lv_type o with Some Scaling => nmul v mu | _ => nadd v mu end) sigma); auto.
    unfold with_dist. cbn [lv_name lv_type lv_deter lv_unit lv_op lv_dev lv_devf lv_chp lv_chpf lv_lot lv_lotf rv_gen rv_name].
    rewrite <- tech_pow_Rmult, S_INR. f_equal. f_equal. destruct (lv_type o) as [[]|]; f_equal; cbn [nmul nadd ROps]; ring.
Qed.
