(** Lemmas about simulations: where exceptions come from. *)
From Coq Require Import QArith Lia.
From Verif Require Import M_Base M_Num M_Nd M_RandVar M_Latent M_Time M_TestSpec M_Minimize M_Device M_Report M_Env M_Sim S_TestSpec L_TestSpec
  S_Device S_Env S_Sim S_Exn L_Base L_Nd L_Latent L_Device L_Device2 L_Device3 L_Env L_Env2 L_Sim L_Sim2 L_Sim3.
Open Scope nat_scope.

Section O.
Variable X : exn -> Prop.
Variables ZG UU : Prop.
Definition own (x : exn) : Prop :=
  X x \/ of_python x \/ (x = ZeroDivisionError /\ ZG) \/ (x = UserConfigError /\ UU).
Definition rnev {A} (r : res A) : Prop := forall x, r = Err x -> own x.
Definition nev {A} (m : M A) : Prop := forall w x, fst (m w) = Err x -> own x.

Lemma rnev_ok {A} (a : A) : rnev (Ok a). Proof. discriminate. Qed.
Lemma rnev_err {A} ex : of_python ex -> rnev (Err (A := A) ex). Proof. intros N x Q. injection Q as <-. right. now left. Qed.
Lemma rnev_bind {A B} (r : res A) (f : A -> res B) : rnev r -> (forall a, rnev (f a)) -> rnev (rbind r f).
Proof. intros Hr Hf. destruct r; cbn; [apply Hf|]. intros x Q. injection Q as ->. now apply Hr. Qed.
Lemma nev_ret {A} (a : A) : nev (ret a). Proof. intros w. discriminate. Qed.
Lemma nev_raise {A} ex : of_python ex -> nev (raise (A := A) ex). Proof. intros N w x Q. injection Q as <-. right. now left. Qed.
Lemma nev_lift {A} (r : res A) : rnev r -> nev (lift r). Proof. intros N w. apply N. Qed.
Lemma nev_bind {A B} (m : M A) (f : A -> M B) : nev m -> (forall a, nev (f a)) -> nev (bind m f).
Proof. intros Hm Hf w. unfold bind. specialize (Hm w). destruct (m w) as [[a|ex] w1]; cbn in *; [apply Hf|]. intros x Q. injection Q as ->. now apply Hm. Qed.
Lemma nev_bind_ok {A B} (m : M A) (f : A -> M B) : nev m -> (forall w a w', m w = (Ok a, w') -> nev (f a)) -> nev (bind m f).
Proof. intros Hm Hf w. unfold bind. specialize (Hm w). destruct (m w) as [[a|ex] w1] eqn:E; cbn in *; [eapply Hf; eauto|]. intros x Q. injection Q as ->. now apply Hm. Qed.
Lemma nev_foldM {A S} (f : S -> A -> M S) l : (forall s x, In x l -> nev (f s x)) -> forall s, nev (foldM f l s).
Proof.
  induction l as [|x l IH]; intros Hf s; cbn [foldM]; [apply nev_ret|].
  apply nev_bind; [apply Hf; now left|]. intros. apply IH. intros. apply Hf. now right.
Qed.
Lemma nev_mapM {A B} (f : A -> M B) l : (forall x, nev (f x)) -> nev (mapM f l).
Proof. intros Hf. induction l; cbn [mapM]; [apply nev_ret|]. repeat (apply nev_bind; auto; intros). apply nev_ret. Qed.
Lemma nev_try {A} (m h : M A) : nev m -> nev h -> nev (try_value_error m h).
Proof.
  intros Hm Hh w. unfold try_value_error. specialize (Hm w). destruct (m w) as [[a|ex] w1]; cbn [fst] in *; [exact Hm|].
  destruct ex; try exact Hm. apply Hh.
Qed.

Ltac lib := solve [unfold of_python; cbn; tauto].
Ltac rcases := repeat first
  [ apply rnev_ok | apply rnev_err; lib | apply rnev_bind; [|intros]
  | match goal with |- rnev (match ?x with _ => _ end) => destruct x end
  | match goal with |- rnev (if ?x then _ else _) => destruct x end
  | match goal with |- rnev (let (_, _) := ?x in _) => destruct x end ].

Section L.
Context {V : Type} `{NumOps V} `{Rng V} `{HashOrd}.
Implicit Types (e : env V) (d : device V) (st : simstate V) (rep : report V).

Lemma rnev_dgetE {A} (d : dict A) k : rnev (dgetE d k). Proof. unfold dgetE. rcases. Qed.
Lemma rnev_bmap2 f (a b : nd V) : rnev (bmap2 f a b). Proof. unfold bmap2. rcases. Qed.
Lemma rnev_bmap3 f (a b c : nd V) : rnev (bmap3 f a b c). Proof. unfold bmap3. rcases. Qed.
Lemma rnev_nreshape s (a : nd V) : rnev (nreshape s a). Proof. unfold nreshape. rcases. Qed.
Lemma rnev_nfull_arr s (a : nd V) : rnev (nfull_arr s a). Proof. unfold nfull_arr. rcases. Qed.
Lemma rnev_nsub1 (a : nd V) i : rnev (nsub1 a i). Proof. unfold nsub1. rcases. Qed.
Lemma rnev_nslice_first k (a : nd V) : rnev (nslice_first k a). Proof. unfold nslice_first. rcases. Qed.
Lemma rnev_nslice_third k (a : nd V) : rnev (nslice_third k a). Proof. unfold nslice_third. rcases. Qed.
Lemma rnev_to_nd (p : pyval V) : rnev (to_nd p). Proof. unfold to_nd. rcases. Qed.
Lemma rnev_pmap2 f (x y : pyval V) : rnev (pmap2 f x y). Proof. unfold pmap2. rcases; try apply rnev_to_nd; apply rnev_bmap2. Qed.
Lemma rnev_opE (m : emdl V) : rnev (em_opE m). Proof. unfold em_opE. rcases. Qed.
Lemma rnev_single (p : pyval V) : forall i j k, rnev (single_val i j k p).
Proof.
  intros i j k. revert p. apply (pyval_ind' (fun p => rnev (single_val i j k p))); cbn [single_val]; intros; try (rcases; fail).
  - rcases; apply rnev_nsub1.
  - apply rnev_bind; [|intros; apply rnev_ok]. induction d as [|[key v] r IH]; [apply rnev_ok|].
    rcases; [eapply H2; now left|apply IH; intros; eapply H2; right; eauto].
Qed.
Lemma rnev_single_index i j k (a : dict (pyval V)) : rnev (single_index i j k a).
Proof. induction a as [|[key v] a IH]; cbn [single_index]; rcases; auto. apply rnev_single. Qed.
Lemma rnev_to_scalar (p : pyval V) : rnev (to_scalar p). Proof. unfold to_scalar. rcases. Qed.
Lemma rnev_as_dict (p : pyval V) : rnev (as_dict p). Proof. unfold as_dict. rcases. Qed.
Lemma rnev_reduce (p : pyval V) : forall k, rnev (reduce_val k p).
Proof.
  intros k. revert p. apply (pyval_ind' (fun p => rnev (reduce_val k p))); cbn [reduce_val]; intros; try (rcases; fail).
  - rcases; apply rnev_nslice_third.
  - apply rnev_bind; [|intros; apply rnev_ok]. induction d as [|[key v] r IH]; [apply rnev_ok|].
    rcases; [eapply H2; now left|apply IH; intros; eapply H2; right; eauto].
Qed.
Lemma rnev_reduce_dims k (a : dict (pyval V)) : rnev (reduce_dims k a).
Proof. induction a as [|[key v] a IH]; cbn [reduce_dims]; rcases; auto. apply rnev_reduce. Qed.
Lemma rnev_third (p : pyval V) : rnev (third_dim p). Proof. unfold third_dim. rcases. Qed.
Lemma rnev_format v prm t i b : rnev (format_measurements (V := V) v prm t i b).
Proof. unfold format_measurements, meas_dims. rcases; try apply rnev_to_nd; apply rnev_nreshape. Qed.
Lemma rnev_add_durations (p : degprm V) dur times : (forall nm m, In (nm, m) (dp_mechs p) -> unit_map (mc_unit m) = None -> UU) -> rnev (add_durations p dur times).
Proof.
  intros HU. unfold add_durations. assert (G : forall l (a : res (dict (pyval V))), rnev a -> rnev (fold_left (fun (acc : res (dict (pyval V))) (kv : string * pyval V) =>
    rbind acc (fun a0 =>
    rbind (dgetE (dp_mechs p) (fst kv)) (fun m =>
    match unit_map (mc_unit m) with
    | None => Err UserConfigError
    | Some u => rbind (pmap2 nadd (snd kv) (PNum (td_num u dur))) (fun t => Ok (dset a0 (fst kv) t))
    end))) l a)).
  { induction l as [|x l IH]; intros a Ha; cbn [fold_left]; auto. apply IH. apply rnev_bind; auto. intros. intros x0 Q. unfold dgetE in Q. destruct (dget (dp_mechs p) (fst x)) as [m|] eqn:Em; [|injection Q as <-; right; left; lib]. cbn [rbind] in Q.
    destruct (unit_map (mc_unit m)) as [q|] eqn:Eu; [revert x0 Q; change (rnev (rbind (pmap2 nadd (snd x) (PNum (td_num q dur))) (fun t => Ok (dset a0 (fst x) t)))); apply rnev_bind; [apply rnev_pmap2|intros; apply rnev_ok]|].
    injection Q as <-. do 3 right. split; [reflexivity|]. eapply HU; [apply dget_In; eassumption|exact Eu]. }
  apply G, rnev_ok.
Qed.
Lemma rnev_vrtn e k : rnev (vrtn_mdl e k).
Proof. unfold vrtn_mdl. destruct (dget e (k ++ "_var")) as [[m|i]|]; rcases. Qed.
Lemma rnev_instm e k : rnev (meas_instm e k).
Proof. unfold meas_instm. rcases. Qed.
Lemma rnev_max_count c : rnev (max_count c). Proof. unfold max_count. rcases. Qed.

#[local] Hint Resolve nev_ret nev_lift rnev_ok rnev_dgetE rnev_bmap2 rnev_bmap3 rnev_nreshape rnev_nfull_arr rnev_nsub1 rnev_nslice_first
  rnev_nslice_third rnev_to_nd rnev_pmap2 rnev_opE rnev_single_index rnev_to_scalar rnev_as_dict rnev_reduce_dims rnev_third rnev_format
  rnev_vrtn rnev_instm rnev_max_count : nev.
Ltac nstep := first
  [ solve [auto with nev] | apply nev_raise; lib | apply nev_lift | apply rnev_err; lib
  | apply nev_bind; [|intros] | apply nev_foldM; intros | apply nev_mapM; intros | apply nev_try | apply rnev_bind; [|intros]
  | match goal with |- nev (match ?x with _ => _ end) => destruct x end
  | match goal with |- nev (if ?x then _ else _) => destruct x end
  | match goal with |- rnev (match ?x with _ => _ end) => destruct x end
  | match goal with |- rnev (if ?x then _ else _) => destruct x end ].
Ltac ncases := repeat nstep.

(** Only with the premise that a rate of 0 is the known fault. *)
Definition fine (r : rv V) : Prop := zero_rate r -> ZG.
Lemma nev_sample (r : rv V) n : fine r -> nev (sample r n).
Proof.
  intros F. unfold sample. destruct (rv_dist r) as [v|mu sg|al be|st sp] eqn:Ed; [apply nev_ret| | |]; intros w x; unfold params_numpy.
  2: destruct (neqb be n0) eqn:Eb; [intros Q; injection Q as <-; right; right; left; split; [reflexivity|]; apply F; exists al, be; auto|].
  all: destruct (rvalid _); [|intros Q; injection Q as <-; right; left; lib].
  all: destruct (draws _ _ _); discriminate.
Qed.
#[local] Hint Resolve nev_sample : nev.
Definition lfine (m : lmdl V) : Prop := forall r, lmdl_has m r -> fine r.
Lemma nev_latent m y (x : lvar V) D C L : lfine m -> In (y, x) (lm_vars m) -> nev (gen_latent x D C L).
Proof.
  intros F I. assert (fine (lv_lot x) /\ fine (lv_chp x) /\ fine (lv_dev x)) as (A & B & Cc)
    by (repeat split; apply F; exists y, x; auto).
  unfold gen_latent. ncases.
Qed.
Lemma nev_call (f : eqn V) a : raises_only X f -> nev (call f a).
Proof. intros N. unfold call. destruct (_ && _); [intros w x E; left; exact (N a w x E)|apply nev_raise; lib]. Qed.
Lemma nev_loop (f : eqn V) a L C D : raises_only X f -> nev (loop_compute f a L C D).
Proof.
  intros N. unfold loop_compute, loop_elem. apply nev_bind; [|intros; apply nev_ret]. apply nev_mapM. intros x.
  destruct x as [|i [|j [|k [|]]]]; try (apply nev_raise; lib). apply nev_bind; [auto with nev|]. intros.
  apply nev_bind; [now apply nev_call|]. auto with nev.
Qed.
#[local] Hint Resolve nev_call nev_loop : nev.
Lemma nev_call_or_loop (f : eqn V) a L C D : raises_only X f -> nev (call_or_loop f a L C D).
Proof. intros N. apply nev_try; auto with nev. Qed.
#[local] Hint Resolve nev_call_or_loop : nev.
Lemma nev_latents (m : lmdl V) D C L : lfine m -> nev (gen_latents m D C L).
Proof.
  intros F. unfold gen_latents. apply nev_foldM. intros s [y x] I. cbn [fst snd]. apply nev_bind; [eapply nev_latent; eauto|auto with nev].
Qed.
#[local] Hint Resolve nev_latents : nev.
Lemma nev_minimize (F : list V -> M (list V)) n lo hi p eps it lg : (forall x, nev (F x)) -> nev (minimize F n lo hi p eps it lg).
Proof.
  intros N. unfold minimize, minimize_run, mrun. apply nev_bind; [|intros; apply nev_ret].
  assert (Ev : forall xs, nev (evalF lg F xs)) by (intros; unfold evalF; ncases).
  apply nev_bind; [apply Ev|]. intros f0.
  generalize (map (minit (if lg then nlog10 lo else lo) (if lg then nlog10 hi else hi)) f0). generalize [(repeat (nadd (if lg then nlog10 lo else lo) (nmul gf2 (nsub (if lg then nlog10 hi else hi) (if lg then nlog10 lo else lo)))) n, f0)].
  induction it as [|it IH]; intros ev ss; cbn [mloop]; destruct (forallb _ ss); try apply nev_ret. apply nev_bind; [apply Ev|]. intros. apply IH.
Qed.

Lemma nev_mech_deg (m : mech V) t p c l L C D : raises_only X (lm_eqn (mc_mdl m)) -> nev (mech_deg_vals m t p c l L C D).
Proof. intros N. unfold mech_deg_vals, base_deg_vals. ncases. Qed.
Lemma nev_mech_equiv (m : mech V) v c l L C D : raises_only X (lm_eqn (mc_mdl m)) -> nev (mech_equiv_time m v c l L C D).
Proof.
  intros N. unfold mech_equiv_time. destruct (mc_kind m); [|ncases]. apply nev_bind; [auto with nev|intros a]. apply nev_bind; [|intros; apply nev_ret].
  apply nev_minimize. intros x. unfold equiv_obj, residue. ncases.
Qed.

Lemma nev_stress_prm d conds rep dur st name p : (unknown_unit d -> UU) -> device_raises_only X d -> In (name, PDeg p) d ->
  nev (stress_prm conds rep dur st (name, p)).
Proof.
  intros HU N I. specialize (N _ _ I). cbn in N. destruct N as (N1 & N2 & N3 & N4).
  assert (HU' : forall dur times, rnev (add_durations p dur times))
    by (intros; apply rnev_add_durations; intros nm m Im Eu; apply HU; exists name, p, nm, m; auto).
  unfold stress_prm, prm_equiv_times, prm_deg_vals. cbn [fst snd].
  do 5 (apply nev_bind; [auto with nev|intros]). apply nev_bind.
  { apply nev_foldM. intros s [nm m] Im. cbn [fst snd]. do 2 (apply nev_bind; [auto with nev|intros]).
    apply nev_bind; [apply nev_lift; apply rnev_bind; auto with nev|intros]. apply nev_bind; [|auto with nev]. eapply nev_mech_equiv; eauto. }
  intros. do 2 (apply nev_bind; [auto with nev|intros]). apply nev_bind; [|auto with nev]. apply nev_bind.
  { apply nev_foldM. intros s [nm m] Im. cbn [fst snd]. do 2 (apply nev_bind; [auto with nev|intros]).
    apply nev_bind; [apply nev_lift; apply rnev_bind; auto with nev|intros]. apply nev_bind; [|auto with nev]. eapply nev_mech_deg; eauto. }
  intros. apply nev_bind; auto with nev.
Qed.

Definition efine (e : env V) : Prop := forall r, env_has e r -> fine r.
Definition mfine (m : emdl V) : Prop := fine (em_bat m) /\ fine (em_chp m) /\ fine (em_dev m).
Lemma nev_gen_batch (m : emdl V) v : mfine m -> nev (gen_batch m v). Proof. intros (A & B & Cc). unfold gen_batch. ncases. Qed.
Lemma nev_gen_chp (m : emdl V) b C L : mfine m -> nev (gen_chp m b C L). Proof. intros (A & B & Cc). unfold gen_chp. ncases. Qed.
Lemma nev_gen_dev (m : emdl V) b D : mfine m -> nev (gen_dev m b D). Proof. intros (A & B & Cc). unfold gen_dev. ncases. Qed.
#[local] Hint Resolve nev_gen_batch nev_gen_chp nev_gen_dev : nev.
Lemma fine_vrtn e x m : efine e -> vrtn_mdl e x = Ok m -> mfine m.
Proof.
  intros F. unfold vrtn_mdl. destruct (dget e (x ++ "_var")) as [[m0|i]|] eqn:E; try discriminate.
  - intros Q. injection Q as ->. apply dget_In in E. repeat split; apply F; exists (x ++ "_var")%string, (AVar m); auto.
  - cbn. intros Q. injection Q as <-. repeat split; intros (al & be & Q & _); discriminate.
Qed.
Lemma nev_vrtn {B} e x (f : emdl V -> M B) : efine e -> (forall m, mfine m -> nev (f m)) -> nev (bind (lift (vrtn_mdl e x)) f).
Proof. intros F Hf. apply nev_bind_ok; [auto with nev|]. intros w m w' Q. apply Hf. unfold lift in Q. injection Q as Q _. eapply fine_vrtn; eauto. Qed.
Lemma nev_gen_env e base prms info dev stress nc nl : efine e -> nev (gen_env_cond_vals e base prms (Some info) dev stress nc nl).
Proof.
  intros F. unfold gen_env_cond_vals, gen_chip_conds, gen_prm_conds, gen_sensor_conds.
  repeat first [apply nev_vrtn; [exact F|intros] | nstep].
Qed.
#[local] Hint Resolve nev_gen_env : nev.
Lemma rnev_round p (l : list V) : rnev (map_res (round_sig p) l).
Proof.
  induction l as [|x l IH]; cbn [map_res]; [auto with nev|].
  apply rnev_bind; [|intros; apply rnev_bind; auto with nev]. unfold round_sig. rcases.
Qed.
#[local] Hint Resolve rnev_round : nev.
Lemma nev_measure e prm vals : efine e -> nev (measure_with e prm vals).
Proof.
  intros F. unfold measure_with. apply nev_bind_ok; [auto with nev|]. intros w f w' Q. unfold lift in Q. injection Q as Q _.
  destruct f as [i|]; [|apply nev_raise; lib].
  assert (Fi : forall r, in_err i = Some r -> fine r).
  { intros r Er. unfold meas_instm in Q. destruct (dmem e "meas_instm"); [discriminate|].
    destruct (dget e (prm ++ "_instm")) as [[m0|i0]|] eqn:E; try discriminate.
    - injection Q as ->. apply dget_In in E. apply F. exists (prm ++ "_instm")%string, (AInst i). auto.
    - destruct (String.eqb _ _); [discriminate|]. injection Q as <-. discriminate. }
  unfold measure. destruct (in_err i) as [r|]; [specialize (Fi r eq_refl)|clear Fi]; ncases.
Qed.
#[local] Hint Resolve nev_measure : nev.

Lemma nev_measure_prm e d i conds sc st rep prm k : efine e -> device_raises_only X d ->
  dmem sc prm = true \/ dget d prm <> None -> nev (measure_prm e d i conds sc st rep prm k).
Proof.
  intros Fe N K. unfold measure_prm. apply nev_bind; [|intros; apply nev_bind; auto with nev].
  destruct (dget (st_prm st) prm) as [cur|]; destruct (dget d prm) as [[p|c]|] eqn:Ed; try (apply nev_raise; lib).
  - apply dget_In in Ed. specialize (N _ _ Ed). cbn in N. destruct N as (N1 & N2 & N3 & N4). unfold cond_shifted, calc_cond_vals. ncases.
  - apply dget_In in Ed. specialize (N _ _ Ed). cbn in N. unfold circ_vals. ncases.
  - destruct K as [K|K]; [|congruence]. rewrite K. ncases.
Qed.

Lemma nev_meas_step e d i (m : meas_spec V) st rep : efine e -> dwf (ms_conds m) -> device_raises_only X d -> nev (meas_step e d i m st rep).
Proof.
  intros Fe W N. unfold meas_step. apply nev_bind_ok; [auto with nev|]. intros w conds w' E. apply nev_bind; [|auto with nev].
  apply nev_foldM. intros s [x k] Ix. cbn [fst snd]. apply nev_bind; [|auto with nev]. apply nev_measure_prm; auto.
  apply env_conds_ok in E as (A & _ & B); auto. cbn [request] in A.
  assert (Hx : dmem conds x = true) by (apply A; apply in_map_iff; exists (x, k); auto). apply dmem_Some in Hx as [v Hv].
  specialize (B x v Hv). cbn [dev_prm] in B. destruct (dget d x); [right; discriminate|]. left. apply dmem_keys. tauto.
Qed.

Lemma nev_stress_step e d i (s : strs_spec V) st rep : efine e -> (unknown_unit d -> UU) -> device_raises_only X d -> nev (stress_step e d i s st rep).
Proof.
  intros Fe HU N. unfold stress_step. apply nev_bind; [auto with nev|intros]. apply nev_bind.
  - apply nev_foldM. intros s0 [nm p] Ip. eapply nev_stress_prm; eauto. unfold deg_prms in Ip. apply in_flat_map in Ip as ([k q] & I & J).
    cbn [fst snd] in J. destruct q; [|destruct J]. destruct J as [J|[]]. injection J as -> ->. auto.
  - intros. unfold add_time_td, sub_time_td. ncases.
Qed.

Lemma nev_run e d l : efine e -> (unknown_unit d -> UU) -> device_raises_only X d -> (forall m, In (SMeas m) l -> dwf (ms_conds m)) ->
  forall i st rep, nev (run_steps e d i l st rep).
Proof.
  intros Fe HU N W. induction l as [|x l IH]; intros i st rep; [apply nev_ret|].
  intros w. rewrite run_cons. revert w. apply nev_bind.
  - destruct x as [m|s|o]; cbn [sim_step fst snd].
    + apply nev_meas_step; auto. apply W. now left.
    + now apply nev_stress_step.
    + apply nev_ret.
  - intros [st1 rep1]. apply IH. intros. apply W. now right.
Qed.

Definition dfine d : Prop := forall r, device_has d r -> fine r.
Lemma nev_dev_init d counts C L : dfine d -> device_raises_only X d -> nev (dev_init_state d counts C L).
Proof.
  intros Fd N. unfold dev_init_state. apply nev_bind; [|auto with nev]. apply nev_foldM. intros g [k q] I. specialize (N _ _ I). unfold gen_prm_state. cbn [fst snd].
  assert (Fq : forall m, (match q with PDeg p => m = dp_init p \/ m = dp_cond p \/ m = dp_own p \/ exists nm mc, In (nm, mc) (dp_mechs p) /\ m = mc_mdl mc | PCirc c => m = c end) -> lfine m).
  { intros m Hm r Hr. apply Fd. exists k, q. split; [exact I|]. destruct q as [p|c]; [|now subst].
    destruct Hm as [->|[->|[->|(nm & mc & Im & ->)]]]; auto. do 3 right. exists nm, mc. auto. }
  apply nev_bind; [auto with nev|intros]. apply nev_bind.
  { destruct q as [p|c]; [|apply nev_latents; auto]. unfold prm_latents. apply nev_bind; [apply nev_latents; auto|intros]. apply nev_bind.
    - apply nev_foldM. intros s [nm mc] Im. cbn [fst snd]. apply nev_bind; [|auto with nev]. apply nev_latents. apply Fq. eauto 8.
    - intros. apply nev_bind; [apply nev_latents; auto|auto with nev]. }
  intros. apply nev_bind; [ncases|intros]. apply nev_bind; [|auto with nev]. destruct q as [p|c]; [|auto with nev]. destruct N as (N1 & _).
  apply nev_bind; [auto with nev|intros]. apply nev_bind; [|auto with nev]. unfold gen_init_vals. apply nev_bind; [apply nev_latents; auto|auto with nev].
Qed.

Lemma nev_simulate e d l C L init : efine e -> dfine d -> (unknown_unit d -> UU) -> device_raises_only X d -> (forall m, In (SMeas m) l -> dwf (ms_conds m)) ->
  nev (simulate e d l C L init).
Proof.
  intros Fe Fd HU N W. unfold simulate. destruct init as [st|]; [now apply nev_run|]. apply nev_bind.
  - unfold gen_init_state. cbn. apply nev_bind; [now apply nev_dev_init|auto with nev].
  - intros r. destruct (ir_report r); [now apply nev_run|apply nev_raise; lib].
Qed.


End L.
End O.
