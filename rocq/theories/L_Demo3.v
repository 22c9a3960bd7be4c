(** The oxide breakdown demonstration script. *)
From Coq Require Import QArith Lia.
From Verif Require Import M_Base M_Num M_Nd M_RandVar M_Latent M_Time M_TestSpec M_Device M_Report M_Env M_Sim M_Demo
  S_Latent S_TestSpec S_Device S_Env S_Sim S_Shape S_Total S_Rows S_Demo L_Base L_TestSpec L_Device L_Env L_Sim L_Shape L_Shape2 L_Total L_Total2 L_Rows L_Demo L_Demo2.
Open Scope nat_scope.

Section L.
Context {V : Type} `{NumOps V} `{Rng V} `{HashOrd}.
Variables (gen : nat -> nat) (ppow : V -> V -> V).
Hypotheses (Hnp : numpy_accepts V) (Hli : literals V).

(** ** Equations for single samples *)
Lemma one_value_operand L C n (p : pyval V) : operand L C n p ->
  (exists v, one_value p = Ok v) \/ (one_value p = Err ValueError /\ shaped L C n p).
Proof.
  intros [[y ->]|S]; [left; eexists; reflexivity|]. destruct S as (a & -> & A1 & A2). cbn [one_value].
  destruct (ndata a) as [|x [|x' r]] eqn:Ed; [right|left; eexists; reflexivity|right]; (split; [reflexivity|]); exists a; rewrite Ed; auto.
Qed.
Lemma one_value_shaped L C n (p : pyval V) v : L * C * n <> 1 -> shaped L C n p -> one_value p <> Ok v.
Proof.
  intros Hn (a & -> & _ & A2). cbn [one_value]. destruct (ndata a) as [|x [|x' r]]; try discriminate. cbn in A2. congruence.
Qed.
Lemma accepts_call (f : eqn V) args w : accepts f (dkeys args) -> call f args w = e_body f args w.
Proof. intros A. now apply call_accepts. Qed.

Definition defect_formula : formula V :=
  FMap2 nmul (FArg "time")
    (FMap2 nmul (FMap2 nmul (FArg "c") (FMap2 ndiv (FArg "v_g") (FArg "t_diel")))
                (FMap2 ndiv (FMap2 ppow (FArg "temp") (FArg "thermal_dist")) (FArg "bond_strength"))).
Lemma defect_value a : defect_prob ppow a = fvalue defect_formula a.
Proof. reflexivity. Qed.

Lemma defect_body u args w L C n : dwf args -> operands L C n args -> accepts (defect_eqn ppow u) (dkeys args) ->
  exists pv w', fvalue defect_formula args = Ok pv /\ operand L C n pv /\
    (call (defect_eqn ppow u) args w = match one_value pv with
       Ok _ => (Ok (PNum (fst w')), snd w') | Err e => (Err e, snd w') end).
Proof.
  intros W O A. rewrite (accepts_call _ _ w A).
  destruct (fvalue_runs defect_formula L C n args O) as (pv & Ev & Ov & _).
  { intros x Hx. apply A. cbn in Hx |- *. tauto. }
  exists pv. cbn [defect_eqn e_body]. rewrite (lift_eval _ _ pv w Ev).
  destruct (sample_runs (Rv u (DUniform (lit 0) (lit 1)) None) 1 (na_uniform Hnp) w) as (xs & w1 & Es & _).
  rewrite (bind_eval _ _ _ _ _ Es). unfold bind, lift.
  destruct (one_value pv) as [v|e]; [eexists (_, w1); repeat split; auto|eexists (n0, w1); repeat split; auto].
Qed.

Lemma numbers_operands L C n (args : dict (pyval V)) : (forall x v, In (x, v) args -> exists y, v = PNum y) -> operands L C n args.
Proof. intros K x v Hx. left. eauto. Qed.

Lemma fvalue_number (e : formula V) args z : (forall x v, In (x, v) args -> exists y, v = PNum y) -> fvalue e args = Ok z -> exists y, z = PNum y.
Proof.
  intros K. revert z. induction e as [v|x|f e IH|f e1 IH1 e2 IH2]; intros z E; cbn [fvalue] in E.
  - injection E as <-. eauto.
  - apply dgetE_ok in E. apply dget_In in E. eauto.
  - apply rbind_ok in E as (y & E1 & E). destruct (IH _ E1) as [y' ->]. cbn in E. injection E as <-. eauto.
  - apply rbind_ok in E as (y & E1 & E). apply rbind_ok in E as (y' & E2 & E). destruct (IH1 _ E1) as [u1 ->], (IH2 _ E2) as [u2 ->].
    cbn in E. injection E as <-. eauto.
Qed.

Lemma defect_per_sample u : per_sample (defect_eqn ppow u).
Proof.
  split.
  - intros args w W K A. destruct (defect_body u args w 1 1 1 W (numbers_operands _ _ _ _ K) A) as (pv & w' & Ev & _ & ->).
    destruct (fvalue_number _ _ _ K Ev) as [y ->]. cbn [one_value]. eauto.
  - intros L C n args w W O A. destruct (defect_body u args w L C n W O A) as (pv & w' & Ev & Ov & ->).
    destruct (one_value_operand _ _ _ _ Ov) as [[v ->]|[-> _]]; do 2 eexists; split; try reflexivity; eauto.
Qed.
Lemma defect_numeric u : numeric (defect_eqn ppow u).
Proof.
  intros L C n args w v w' W O E. unfold call in E. destruct (_ && _); [|discriminate E]. cbn [defect_eqn e_body] in E.
  apply bind_lift_ok in E as (pv & _ & E). apply bind_ok in E as (xs & w1 & _ & E). apply bind_lift_ok in E as (pr & _ & E). apply ret_ok in E as [-> _].
  left. eauto.
Qed.

Definition oxide_value (args : dict (pyval V)) : res (pyval V) := 
  rbind (map_res (fun x => rbind (dgetE args x) one_value) defects) (fun vs =>
  rbind (rbind (dgetE args "threshold") one_value) (fun t =>
  rbind (rbind (dgetE args "init") one_value) (fun i =>
  Ok (PNum (if broken (map (defective t) vs) || neqb i (lit 0) then lit 0 else lit 1))))).
Lemma oxide_call args w : accepts oxide_eqn (dkeys args) -> call oxide_eqn args w = (oxide_value args, w).
Proof. intros A. now rewrite (accepts_call _ _ w A). Qed.

Lemma arg_value (args : dict (pyval V)) x L C n : operands L C n args -> In x (dkeys args) ->
  (exists v, rbind (dgetE args x) one_value = Ok v) \/ (rbind (dgetE args x) one_value = Err ValueError /\ exists a, In (x, PArr a) args).
Proof.
  intros O Hx. apply dmem_keys, dmem_Some in Hx as [p Hp]. unfold dgetE. rewrite Hp. cbn [rbind]. apply dget_In in Hp.
  destruct (one_value_operand _ _ _ _ (O _ _ Hp)) as [G|[G (a & -> & _)]]; eauto.
Qed.
Lemma args_values (args : dict (pyval V)) L C n names : operands L C n args -> (forall x, In x names -> In x (dkeys args)) ->
  (exists vs, map_res (fun x => rbind (dgetE args x) one_value) names = Ok vs) \/
  (map_res (fun x => rbind (dgetE args x) one_value) names = Err ValueError /\ exists x a, In (x, PArr a) args).
Proof.
  intros O. induction names as [|x r IH]; intros K; [left; eexists; reflexivity|]. cbn [map_res].
  destruct (arg_value args x L C n O (K x (or_introl eq_refl))) as [[v ->]|[-> (a & Ha)]]; [|right; split; [reflexivity|eauto]]. cbn [rbind].
  destruct IH as [[vs ->]|[-> X]]; [intros; apply K; now right|left; eexists; reflexivity|right; split; [reflexivity|exact X]].
Qed.
Lemma oxide_outcome args L C n : operands L C n args -> accepts oxide_eqn (dkeys args) ->
  (exists y, oxide_value args = Ok (PNum y)) \/ (oxide_value args = Err ValueError /\ exists x a, In (x, PArr a) args).
Proof.
  intros O [A _]. unfold oxide_value.
  destruct (args_values args L C n defects O) as [[vs ->]|[-> X]]; [intros x Hx; apply A; cbn in Hx |- *; tauto| |right; auto]. cbn [rbind].
  destruct (arg_value args "threshold" L C n O) as [[t ->]|[-> (a & X)]]; [apply A; cbn; auto| |right; eauto]. cbn [rbind].
  destruct (arg_value args "init" L C n O) as [[i ->]|[-> (a & X)]]; [apply A; cbn; auto| |right; eauto]. cbn [rbind]. eauto.
Qed.
Lemma oxide_per_sample : per_sample (V := V) oxide_eqn.
Proof.
  split.
  - intros args w W K A. rewrite (oxide_call args w A).
    destruct (oxide_outcome args 1 1 1 (numbers_operands _ _ _ _ K) A) as [[y ->]|[-> (x & a & Hx)]]; [eauto|]. destruct (K _ _ Hx). discriminate.
  - intros L C n args w W O A. rewrite (oxide_call args w A). destruct (oxide_outcome args L C n O A) as [[y ->]|[-> _]]; eauto 6.
Qed.
(** Unless there is exactly one sample, arrays are rejected. *)
Lemma oxide_follows L C n : L * C * n <> 1 -> follows_at (V := V) L C n oxide_eqn.
Proof.
  intros Hn args w v w' W O E. unfold call in E. destruct (_ && _); [|discriminate E]. cbn [oxide_eqn e_body] in E.
  unfold lift in E. injection E as E _.
  apply rbind_ok in E as (vs & _ & E). apply rbind_ok in E as (t & _ & E). apply rbind_ok in E as (i & Ei & E). injection E as <-.
  split; [left; eauto|]. intros (a & Ha). exfalso. apply rbind_ok in Ei as (q & Eq & Ei). apply dgetE_ok in Eq.
  apply dget_wf_In in Ha; auto. assert (q = PArr a) by congruence. subst q. apply (one_value_shaped L C n) in Ei; auto.
  destruct (O _ _ (dget_In _ _ _ Eq)) as [[y Q]|S]; [discriminate Q|exact S].
Qed.

(** ** The script *)
Definition load (celsius v_g : Q) (us : Z) (name : string) : step V := SStrs (StrsSpec (tg (kelvin celsius) (lit v_g)) us name).
Definition week (n : nat) : list (step V) :=
  [load 65 (9 # 10) 108000000000 "Moderate Loading"; load 88 (92 # 100) 57600000000 "Heavy Loading"; load 30 (87 # 100) 439200000000 "Idle State"; fail_check n].
Definition field_steps (n : nat) : list (step V) := fail_check n :: cycles 104 (week n).

Lemma field_test_steps n fuel : 104 <= fuel -> field_test (V := V) n fuel = Ok (field_steps n).
Proof.
  intros Hf. unfold field_test.
  change (stress (tg (kelvin 65) (lit (9 # 10))) 30 "Moderate Loading") with (Ok (load 65 (9 # 10) 108000000000 "Moderate Loading")).
  change (stress (tg (kelvin 88) (lit (92 # 100))) 16 "Heavy Loading") with (Ok (load 88 (92 # 100) 57600000000 "Heavy Loading")).
  change (stress (tg (kelvin 30) (lit (87 # 100))) 122 "Idle State") with (Ok (load 30 (87 # 100) 439200000000 "Idle State")).
  cbn [rbind]. apply (looped_steps 104); [vm_compute; reflexivity|exact Hf].
Qed.
Lemma field_In n s : In s (field_steps n) -> In s (week n).
Proof. intros [<-|Hs]; [cbn; auto|now apply cycles_In in Hs]. Qed.

Lemma field_env_total n : exists e, field_env gen = Ok e /\ env_ok e (field_steps n).
Proof.
  unfold field_env.
  destruct (vrtn_total (gamma gen 0 2 1) (normal gen 1 0 (3 # 10)) None) as (t & -> & Ot); try part. cbn [rbind].
  destruct (vrtn_total (normal gen 2 0 (1 # 1000)) (normal gen 3 0 (3 # 1000)) None) as (v & -> & Ov); try part. cbn [rbind].
  set (ins := Instm _ _ _ _).
  assert (E : exists e, env_init [t; v] (RDict [("temp", 0); ("v_g", 1)]%string) [ins] (RDict [("temp"%string, 0)]) = Ok e) by (eexists; reflexivity).
  destruct E as [e E]. exists e. split; auto. eapply env_init_ok; [| |exact E| |].
  - split; repeat constructor; cbn; intuition discriminate.
  - split; repeat constructor; intros [].
  - intros x m Gm. cbn [given dget] in Gm. destruct (String.eqb x "temp"); [injection Gm as <-; exact Ot|].
    destruct (String.eqb x "v_g"); [|discriminate]. injection Gm as <-. exact Ov.
  - intros x i Gi. cbn [given dget] in Gi. destruct (String.eqb x "temp") eqn:Q; [|discriminate]. apply String.eqb_eq in Q as ->.
    split; [discriminate|]. intros (k & m & Hm & Hk). exfalso. apply field_In in Hm as [Q|[Q|[Q|[Q|[]]]]]; try discriminate Q. injection Q as <-.
    destruct Hk as [Q|[]]. discriminate Q.
Qed.

Lemma row_count_app f (l1 l2 : list (step V)) : row_count f (l1 ++ l2) = row_count f l1 + row_count f l2.
Proof. induction l1 as [|[m|x|o] l1 IH]; cbn [app row_count]; auto. rewrite IH. lia. Qed.
Lemma field_rows n f : row_count f (field_steps n) = 105 * f ("tddb"%string, n).
Proof.
  assert (K : forall k, row_count f (cycles k (week n)) = k * f ("tddb"%string, n)).
  { induction k as [|k IH]; [reflexivity|]. cbn [cycles]. rewrite row_count_app, IH. unfold week. cbn [row_count load fail_check ms_counts map list_sum fold_right]. lia. }
  unfold field_steps. cbn [row_count fail_check ms_counts map list_sum fold_right]. rewrite K. lia.
Qed.

(** The parameter of the script. *)
Definition oxide_prm (p : degprm V) : Prop := exists i threshold m, deter 1 = Ok i /\ deter (5 # 10) = Ok threshold /\ mc_kind m = KFail /\ mc_unitary m = n0 /\
  p = DegPrm (init_of i) no_cond n0 (with_units (Some "hours"%string) (map (fun x => (x, m)) defects)) (LMdl oxide_eqn [("threshold"%string, threshold)]).
Lemma field_measures n : measures (field_steps n) (MeasSpec [("tddb"%string, n)] (tg (kelvin 35) (lit (9 # 10))) "FailCheck").
Proof. split; [now left|]. intros m' Hm'. apply field_In in Hm' as [Q|[Q|[Q|[Q|[]]]]]; try discriminate Q; now injection Q as <-. Qed.
Lemma field_fine n s : In s (field_steps n) -> step_fine s.
Proof. clear gen ppow Hnp Hli. intros Hs. apply field_In in Hs as [<-|[<-|[<-|[<-|[]]]]]; fine_step. Qed.
Lemma field_prm n q : n <> 1 -> exists p, field_device gen ppow q = Ok [("tddb"%string, PDeg p)] /\ oxide_prm p /\
  deg_ok (field_steps n) "tddb" p /\ prm_fine 1 1 n p /\ dwf (dp_mechs p).
Proof.
  intros Hn.
  destruct (deter_total (V := V) (4 # 100000)) as (c & E1 & O1). destruct (deter_total (V := V) 3) as (t_diel & E2 & O2).
  destruct (deter_total (V := V) 200) as (bond & E3 & O3). destruct (deter_total (V := V) q) as (therm & E4 & O4).
  destruct (deter_total (V := V) 1) as (i & E5 & O5). destruct (deter_total (V := V) (5 # 10)) as (threshold & E6 & O6).
  set (m := mech_of KFail (defect_eqn ppow (gen 5)) [("c", c); ("t_diel", t_diel); ("bond_strength", bond); ("thermal_dist", therm)]%string None).
  set (mechs := map (fun x => (x, m)) defects).
  set (p := DegPrm (init_of i) no_cond n0 (with_units (Some "hours"%string) mechs) (LMdl oxide_eqn [("threshold"%string, threshold)])).
  assert (Ed : field_device gen ppow q = Ok [("tddb"%string, PDeg p)]) by (unfold field_device; rewrite E1, E2, E3, E4, E5, E6; reflexivity).
  assert (Km : forall nm m', In (nm, m') mechs -> m' = m) by (intros nm m' Hm; apply in_map_iff in Hm as (x & Q & _); now injection Q as _ <-).
  assert (Kk : dkeys mechs = defects) by reflexivity.
  assert (Ks : forall s, In (SStrs s) (field_steps n) -> In "temp"%string (dkeys (ss_conds s)) /\ In "v_g"%string (dkeys (ss_conds s))).
  { intros s Hs. apply field_In in Hs as [Q|[Q|[Q|[Q|[]]]]]; try discriminate Q; injection Q as <-; cbn; auto. }
  exists p. split; [exact Ed|]. split; [exists i, threshold, m; auto|]. split; [|split].
  - apply (prm_of_deg mechs i (LMdl oxide_eqn [("threshold"%string, threshold)]) (Some "hours"%string) None); auto.
    + intros x o [Q|[]]. injection Q as <- <-. exact O6.
    + rewrite Kk. cbn. intuition (subst; discriminate).
    + rewrite Kk. intros x [<-|[]]. cbn. intuition discriminate.
    + rewrite Kk. cbn. intros x Hx. intuition.
    + rewrite Kk. intros _ x Hx. left. cbn in Hx |- *. intuition.
    + apply per_sample_computes, oxide_per_sample.
    + intros nm m' Hm. apply Km in Hm as ->. split; [|split; [|split; [|split]]].
      * intros x o [Q|[Q|[Q|[Q|[]]]]]; injection Q as <- <-; auto.
      * left. now left.
      * apply per_sample_computes, defect_per_sample.
      * discriminate.
      * intros x [<-|[<-|[<-|[<-|[<-|[<-|[<-|[]]]]]]]]; [now left|right; right|right; right|right; left; cbn; auto..]; intros s Hs; apply (Ks s Hs).
  - apply prm_of_fine; [apply oxide_follows; lia|]. intros nm m' Hm. apply Km in Hm as ->. apply defect_numeric.
  - unfold dwf. cbn [dp_mechs p]. rewrite with_units_keys, Kk. repeat constructor; cbn; intuition discriminate.
Qed.
Lemma field_reported n q w : n <> 1 -> exists r w', single_test gen ppow q (field_steps n) w = (Ok r, w') /\
  reported (field_steps n) 1 1 "tddb" "tddb" n w r w'.
Proof.
  intros Hn. destruct (field_env_total n) as (e & Ee & Oe). destruct (field_prm n q Hn) as (p & Ed & _ & P1 & P2 & P3).
  destruct (one_reported e "tddb" p (field_steps n) _ n 1 1 w (field_measures n) eq_refl) as (st & rep & w' & E & Rp); auto.
  - discriminate.
  - intros s Hs. now apply field_fine with n.
  - exists rep, w'. split; [|exact Rp].
    unfold single_test. rewrite (lift_eval _ _ _ w Ee), (lift_eval _ _ _ w Ed), (bind_eval _ _ _ _ _ E). reflexivity.
Qed.
Lemma field_single n q w : n <> 1 -> exists r w', single_test gen ppow q (field_steps n) w = (Ok r, w') /\
  length (rp_meas r) = 105 * n /\ summary_exact (field_steps n) 0 0 (rp_sum r) /\ dget (rp_counts r) "tddb" = Some n.
Proof.
  intros Hn. destruct (field_reported n q w Hn) as (r & w' & E & (_ & _ & _ & _ & _ & _ & _ & T & Sm & G & _)). exists r, w'. split; auto. split; auto. rewrite T, field_rows. lia.
Qed.

Theorem field_passes fuel ws : 104 <= fuel -> field_entry gen ppow fuel ws = Ok 0%Z.
Proof.
  intros Hf. unfold field_entry, field_run. rewrite (field_test_steps 100 fuel Hf). cbn [rbind].
  assert (F : forall q, exists r, fst (single_test gen ppow q (field_steps 100) (ws q)) = Ok r /\
    length (rp_meas r) = 105 * 100 /\ summary_exact (field_steps 100) 0 0 (rp_sum r) /\ dget (rp_counts r) "tddb" = Some 100).
  { intros q. destruct (field_single 100 q (ws q) ltac:(discriminate)) as (r & w' & E & X). exists r. rewrite E. auto. }
  cbn [map_res]. 
  destruct (F (105 # 100)%Q) as (r1 & -> & A1 & B1 & C1). cbn [rbind]. destruct (F (1075 # 1000)%Q) as (r2 & -> & A2 & B2 & C2). cbn [rbind].
  destruct (F (11 # 10)%Q) as (r3 & -> & A3 & B3 & C3). cbn [rbind]. destruct (F (1125 # 1000)%Q) as (r4 & -> & _). cbn [rbind].
  destruct (F (115 # 100)%Q) as (r5 & -> & A5 & B5 & C5). cbn [rbind].
  destruct (summary_at _ _ 339 _ B2 eq_refl) as (s2 & N2 & _ & S2). destruct (summary_at _ _ 31 _ B1 eq_refl) as (s1 & N1 & S1 & _).
  change (of_step _ (115 # 100)) with (Ok r5). change (of_step _ (1075 # 1000)) with (Ok r2). change (of_step _ (105 # 100)) with (Ok r1). change (of_step _ (11 # 10)) with (Ok r3).
  cbn [rbind]. rewrite (rows_says r5 _ A5), (count_says r3 _ _ C3), (at_says _ _ "v_g" _ _ N2 (S2 "v_g"%string _ eq_refl)).
  destruct S1 as (_ & _ & _ & S1 & _). rewrite (at_says _ _ "duration" _ _ N1 S1).
  cbn [rbind is_num is_hours]. unfold lit. rewrite (proj2 (li_same Hli)).
  assert (Hh := li_hours Hli 122 (or_intror (or_intror (or_introl eq_refl)))). cbn [ss_dur]. change (439200000000)%Z with (122 * 3600 * 1000000)%Z.
  rewrite Hh. reflexivity.
Qed.
End L.
