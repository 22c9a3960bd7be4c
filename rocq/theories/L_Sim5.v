(** Lemmas about simulations: names that nobody knows. *)
From Coq Require Import QArith Lia.
From Verif Require Import M_Base M_Num M_Nd M_RandVar M_Latent M_Time M_TestSpec M_Minimize M_Device M_Report M_Env M_Sim S_TestSpec L_TestSpec
  S_Device S_Env S_Sim L_Base L_Nd L_Latent L_Device L_Device2 L_Device3 L_Env L_Env2 L_Sim L_Sim2 L_Sim3.
Open Scope nat_scope.

(** ** Never raising MissingParamError *)
Definition rnev {A} (r : res A) : Prop := r <> Err MissingParamError.
Definition nev {A} (m : M A) : Prop := forall w, fst (m w) <> Err MissingParamError.

Lemma rnev_ok {A} (a : A) : rnev (Ok a). Proof. discriminate. Qed.
Lemma rnev_err {A} ex : ex <> MissingParamError -> rnev (Err (A := A) ex). Proof. intros N Q. injection Q as Q. auto. Qed.
Lemma rnev_bind {A B} (r : res A) (f : A -> res B) : rnev r -> (forall a, rnev (f a)) -> rnev (rbind r f).
Proof. intros Hr Hf. destruct r; cbn; [apply Hf|]. intros Q. injection Q as ->. now apply Hr. Qed.
Lemma nev_ret {A} (a : A) : nev (ret a). Proof. intros w. discriminate. Qed.
Lemma nev_raise {A} ex : ex <> MissingParamError -> nev (raise (A := A) ex). Proof. intros N w Q. injection Q as Q. auto. Qed.
Lemma nev_lift {A} (r : res A) : rnev r -> nev (lift r). Proof. intros N w. apply N. Qed.
Lemma nev_bind {A B} (m : M A) (f : A -> M B) : nev m -> (forall a, nev (f a)) -> nev (bind m f).
Proof. intros Hm Hf w. unfold bind. specialize (Hm w). destruct (m w) as [[a|ex] w1]; cbn in *; [apply Hf|]. intros Q. injection Q as ->. now apply Hm. Qed.
Lemma nev_bind_ok {A B} (m : M A) (f : A -> M B) : nev m -> (forall w a w', m w = (Ok a, w') -> nev (f a)) -> nev (bind m f).
Proof. intros Hm Hf w. unfold bind. specialize (Hm w). destruct (m w) as [[a|ex] w1] eqn:E; cbn in *; [eapply Hf; eauto|]. intros Q. injection Q as ->. now apply Hm. Qed.
Lemma nev_foldM {A S} (f : S -> A -> M S) l : (forall s x, In x l -> nev (f s x)) -> forall s, nev (foldM f l s).
Proof.
  induction l as [|x l IH]; intros Hf s; cbn [foldM]; [apply nev_ret|].
  apply nev_bind; [apply Hf; now left|]. intros. apply IH. intros. apply Hf. now right.
Qed.
Lemma nev_mapM {A B} (f : A -> M B) l : (forall x, nev (f x)) -> nev (mapM f l).
Proof. intros Hf. induction l; cbn [mapM]; [apply nev_ret|]. repeat (apply nev_bind; auto; intros). apply nev_ret. Qed.
Lemma nev_try {A} (m h : M A) : nev m -> nev h -> nev (try_value_error m h).
Proof.
  intros Hm Hh w. unfold try_value_error. specialize (Hm w). destruct (m w) as [[a|ex] w1]; cbn in *; auto.
  destruct ex; auto.
Qed.

Ltac rcases := repeat first
  [ apply rnev_ok | apply rnev_err; discriminate | apply rnev_bind; [|intros]
  | match goal with |- rnev (match ?x with _ => _ end) => destruct x end
  | match goal with |- rnev (if ?x then _ else _) => destruct x end
  | match goal with |- rnev (let (_, _) := ?x in _) => destruct x end ].

Section L.
Context {V : Type} `{NumOps V} `{Rng V} `{HashOrd}.
Implicit Types (e : env V) (d : device V) (st : simstate V) (rep : report V).

Lemma rnev_dgetE {A} (d : dict A) k : rnev (dgetE d k). Proof. unfold dgetE. rcases. Qed.
Lemma rnev_bmap2 f (a b : nd V) : rnev (bmap2 f a b). Proof. unfold bmap2. rcases. Qed.
Lemma rnev_bmap3 f (a b c : nd V) : rnev (bmap3 f a b c). Proof. unfold bmap3. rcases. Qed.
Lemma rnev_nreshape s (a : nd V) : rnev (nreshape s a). Proof. unfold nreshape. rcases. Qed.
Lemma rnev_nfull_arr s (a : nd V) : rnev (nfull_arr s a). Proof. unfold nfull_arr. rcases. Qed.
Lemma rnev_nsub1 (a : nd V) i : rnev (nsub1 a i). Proof. unfold nsub1. rcases. Qed.
Lemma rnev_nslice_first k (a : nd V) : rnev (nslice_first k a). Proof. unfold nslice_first. rcases. Qed.
Lemma rnev_nslice_third k (a : nd V) : rnev (nslice_third k a). Proof. unfold nslice_third. rcases. Qed.
Lemma rnev_to_nd (p : pyval V) : rnev (to_nd p). Proof. unfold to_nd. rcases. Qed.
Lemma rnev_pmap2 f (x y : pyval V) : rnev (pmap2 f x y). Proof. unfold pmap2. rcases; try apply rnev_to_nd; apply rnev_bmap2. Qed.
Lemma rnev_opE (m : emdl V) : rnev (em_opE m). Proof. unfold em_opE. rcases. Qed.
Lemma rnev_single (p : pyval V) : forall i j k, rnev (single_val i j k p).
Proof.
  intros i j k. revert p. apply (pyval_ind' (fun p => rnev (single_val i j k p))); cbn [single_val]; intros; try (rcases; fail).
  - rcases; apply rnev_nsub1.
  - apply rnev_bind; [|intros; apply rnev_ok]. induction d as [|[key v] r IH]; [apply rnev_ok|].
    rcases; [eapply H2; now left|apply IH; intros; eapply H2; right; eauto].
Qed.
Lemma rnev_single_index i j k (a : dict (pyval V)) : rnev (single_index i j k a).
Proof. induction a as [|[key v] a IH]; cbn [single_index]; rcases; auto. apply rnev_single. Qed.
Lemma rnev_to_scalar (p : pyval V) : rnev (to_scalar p). Proof. unfold to_scalar. rcases. Qed.
Lemma rnev_as_dict (p : pyval V) : rnev (as_dict p). Proof. unfold as_dict. rcases. Qed.
Lemma rnev_reduce (p : pyval V) : forall k, rnev (reduce_val k p).
Proof.
  intros k. revert p. apply (pyval_ind' (fun p => rnev (reduce_val k p))); cbn [reduce_val]; intros; try (rcases; fail).
  - rcases; apply rnev_nslice_third.
  - apply rnev_bind; [|intros; apply rnev_ok]. induction d as [|[key v] r IH]; [apply rnev_ok|].
    rcases; [eapply H2; now left|apply IH; intros; eapply H2; right; eauto].
Qed.
Lemma rnev_reduce_dims k (a : dict (pyval V)) : rnev (reduce_dims k a).
Proof. induction a as [|[key v] a IH]; cbn [reduce_dims]; rcases; auto. apply rnev_reduce. Qed.
Lemma rnev_third (p : pyval V) : rnev (third_dim p). Proof. unfold third_dim. rcases. Qed.
Lemma rnev_format v prm t i b : rnev (format_measurements (V := V) v prm t i b).
Proof. unfold format_measurements, meas_dims. rcases; try apply rnev_to_nd; apply rnev_nreshape. Qed.
Lemma rnev_add_durations (p : degprm V) dur times : rnev (add_durations p dur times).
Proof.
  unfold add_durations. assert (G : forall l (a : res (dict (pyval V))), rnev a -> rnev (fold_left (fun (acc : res (dict (pyval V))) (kv : string * pyval V) =>
    rbind acc (fun a0 =>
    rbind (dgetE (dp_mechs p) (fst kv)) (fun m =>
    match unit_map (mc_unit m) with
    | None => Err UserConfigError
    | Some u => rbind (pmap2 nadd (snd kv) (PNum (td_num u dur))) (fun t => Ok (dset a0 (fst kv) t))
    end))) l a)).
  { induction l as [|x l IH]; intros a Ha; cbn [fold_left]; auto. apply IH. apply rnev_bind; auto. intros. apply rnev_bind; [apply rnev_dgetE|].
    intros. destruct (unit_map _); [apply rnev_bind; [apply rnev_pmap2|intros; apply rnev_ok]|apply rnev_err; discriminate]. }
  apply G, rnev_ok.
Qed.
Lemma rnev_vrtn e k : rnev (vrtn_mdl e k).
Proof. unfold vrtn_mdl. destruct (dget e (k ++ "_var")) as [[m|i]|]; rcases. Qed.
Lemma rnev_instm e k : rnev (meas_instm e k).
Proof. unfold meas_instm. rcases. Qed.
Lemma rnev_max_count c : rnev (max_count c). Proof. unfold max_count. rcases. Qed.

#[local] Hint Resolve nev_ret nev_lift rnev_ok rnev_dgetE rnev_bmap2 rnev_bmap3 rnev_nreshape rnev_nfull_arr rnev_nsub1 rnev_nslice_first
  rnev_nslice_third rnev_to_nd rnev_pmap2 rnev_opE rnev_single_index rnev_to_scalar rnev_as_dict rnev_reduce_dims rnev_third rnev_format
  rnev_add_durations rnev_vrtn rnev_instm rnev_max_count : nev.
Ltac ncases := repeat first
  [ solve [auto with nev] | apply nev_raise; discriminate | apply nev_lift | apply rnev_err; discriminate
  | apply nev_bind; [|intros] | apply nev_foldM; intros | apply nev_mapM; intros | apply nev_try | apply rnev_bind; [|intros]
  | match goal with |- nev (match ?x with _ => _ end) => destruct x end
  | match goal with |- nev (if ?x then _ else _) => destruct x end
  | match goal with |- rnev (match ?x with _ => _ end) => destruct x end
  | match goal with |- rnev (if ?x then _ else _) => destruct x end ].

Lemma nev_sample (r : rv V) n : nev (sample r n).
Proof.
  unfold sample. destruct (rv_dist r) as [v|mu sg|al be|st sp] eqn:Ed; [apply nev_ret| | |]; intros w; unfold params_numpy.
  all: repeat match goal with |- context [match ?x with _ => _ end] => destruct x eqn:? end; cbn; try discriminate.
  all: try congruence. destruct (neqb be n0); congruence.
Qed.
#[local] Hint Resolve nev_sample : nev.
Lemma nev_latent (x : lvar V) D C L : nev (gen_latent x D C L).
Proof. unfold gen_latent. ncases. Qed.
#[local] Hint Resolve nev_latent : nev.
Lemma nev_call (f : eqn V) a : not_raised MissingParamError f -> nev (call f a).
Proof. intros N. unfold call. destruct (_ && _); [exact (N a)|apply nev_raise; discriminate]. Qed.
Lemma nev_loop (f : eqn V) a L C D : not_raised MissingParamError f -> nev (loop_compute f a L C D).
Proof.
  intros N. unfold loop_compute, loop_elem. apply nev_bind; [|intros; apply nev_ret]. apply nev_mapM. intros x.
  destruct x as [|i [|j [|k [|]]]]; try (apply nev_raise; discriminate). apply nev_bind; [auto with nev|]. intros.
  apply nev_bind; [now apply nev_call|]. auto with nev.
Qed.
#[local] Hint Resolve nev_call nev_loop : nev.
Lemma nev_call_or_loop (f : eqn V) a L C D : not_raised MissingParamError f -> nev (call_or_loop f a L C D).
Proof. intros N. apply nev_try; auto with nev. Qed.
#[local] Hint Resolve nev_call_or_loop : nev.
Lemma nev_latents (m : lmdl V) D C L : nev (gen_latents m D C L).
Proof. unfold gen_latents. ncases. Qed.
#[local] Hint Resolve nev_latents : nev.
Lemma nev_minimize (F : list V -> M (list V)) n lo hi p eps it lg : (forall x, nev (F x)) -> nev (minimize F n lo hi p eps it lg).
Proof.
  intros N. unfold minimize, minimize_run, mrun. apply nev_bind; [|intros; apply nev_ret].
  assert (Ev : forall xs, nev (evalF lg F xs)) by (intros; unfold evalF; ncases).
  apply nev_bind; [apply Ev|]. intros f0.
  generalize (map (minit (if lg then nlog10 lo else lo) (if lg then nlog10 hi else hi)) f0). generalize [(repeat (nadd (if lg then nlog10 lo else lo) (nmul gf2 (nsub (if lg then nlog10 hi else hi) (if lg then nlog10 lo else lo)))) n, f0)].
  induction it as [|it IH]; intros ev ss; cbn [mloop]; destruct (forallb _ ss); try apply nev_ret. apply nev_bind; [apply Ev|]. intros. apply IH.
Qed.

Lemma nev_mech_deg (m : mech V) t p c l L C D : not_raised MissingParamError (lm_eqn (mc_mdl m)) -> nev (mech_deg_vals m t p c l L C D).
Proof. intros N. unfold mech_deg_vals, base_deg_vals. ncases. Qed.
Lemma nev_mech_equiv (m : mech V) v c l L C D : not_raised MissingParamError (lm_eqn (mc_mdl m)) -> nev (mech_equiv_time m v c l L C D).
Proof.
  intros N. unfold mech_equiv_time. destruct (mc_kind m); [|ncases]. apply nev_bind; [auto with nev|intros a]. apply nev_bind; [|intros; apply nev_ret].
  apply nev_minimize. intros x. unfold equiv_obj, residue. ncases.
Qed.

Lemma nev_stress_prm d conds rep dur st name p : device_not_raising MissingParamError d -> In (name, PDeg p) d ->
  nev (stress_prm conds rep dur st (name, p)).
Proof.
  intros N I. specialize (N _ _ I). cbn in N. destruct N as (N1 & N2 & N3 & N4). unfold stress_prm, prm_equiv_times, prm_deg_vals. cbn [fst snd].
  do 5 (apply nev_bind; [auto with nev|intros]). apply nev_bind.
  { apply nev_foldM. intros s [nm m] Im. cbn [fst snd]. do 2 (apply nev_bind; [auto with nev|intros]).
    apply nev_bind; [apply nev_lift; apply rnev_bind; auto with nev|intros]. apply nev_bind; [|auto with nev]. eapply nev_mech_equiv; eauto. }
  intros. do 2 (apply nev_bind; [auto with nev|intros]). apply nev_bind; [|auto with nev]. apply nev_bind.
  { apply nev_foldM. intros s [nm m] Im. cbn [fst snd]. do 2 (apply nev_bind; [auto with nev|intros]).
    apply nev_bind; [apply nev_lift; apply rnev_bind; auto with nev|intros]. apply nev_bind; [|auto with nev]. eapply nev_mech_deg; eauto. }
  intros. apply nev_bind; auto with nev.
Qed.

Lemma nev_gen_batch (m : emdl V) v : nev (gen_batch m v). Proof. unfold gen_batch. ncases. Qed.
Lemma nev_gen_chp (m : emdl V) b C L : nev (gen_chp m b C L). Proof. unfold gen_chp. ncases. Qed.
Lemma nev_gen_dev (m : emdl V) b D : nev (gen_dev m b D). Proof. unfold gen_dev. ncases. Qed.
#[local] Hint Resolve nev_gen_batch nev_gen_chp nev_gen_dev : nev.
Lemma nev_gen_env e base prms info dev stress nc nl : nev (gen_env_cond_vals e base prms info dev stress nc nl).
Proof. unfold gen_env_cond_vals, gen_chip_conds, gen_prm_conds, gen_sensor_conds. ncases. Qed.
#[local] Hint Resolve nev_gen_env : nev.
Lemma rnev_round p (l : list V) : rnev (map_res (round_sig p) l).
Proof.
  induction l as [|x l IH]; cbn [map_res]; [auto with nev|].
  apply rnev_bind; [|intros; apply rnev_bind; auto with nev]. unfold round_sig. rcases.
Qed.
#[local] Hint Resolve rnev_round : nev.
Lemma nev_measure e prm vals : nev (measure_with e prm vals).
Proof. unfold measure_with, measure. ncases. Qed.
#[local] Hint Resolve nev_measure : nev.

Lemma nev_measure_prm e d i conds sc st rep prm k : device_not_raising MissingParamError d ->
  dmem sc prm = true \/ dget d prm <> None -> nev (measure_prm e d i conds sc st rep prm k).
Proof.
  intros N K. unfold measure_prm. apply nev_bind; [|intros; apply nev_bind; auto with nev].
  destruct (dget (st_prm st) prm) as [cur|]; destruct (dget d prm) as [[p|c]|] eqn:Ed; try (apply nev_raise; discriminate).
  - apply dget_In in Ed. specialize (N _ _ Ed). cbn in N. destruct N as (N1 & N2 & N3 & N4). unfold cond_shifted, calc_cond_vals. ncases.
  - apply dget_In in Ed. specialize (N _ _ Ed). cbn in N. unfold circ_vals. ncases.
  - destruct K as [K|K]; [|congruence]. rewrite K. ncases.
Qed.

Lemma nev_meas_step e d i (m : meas_spec V) st rep : dwf (ms_conds m) -> device_not_raising MissingParamError d -> nev (meas_step e d i m st rep).
Proof.
  intros W N. unfold meas_step. apply nev_bind_ok; [auto with nev|]. intros w conds w' E. apply nev_bind; [|auto with nev].
  apply nev_foldM. intros s [x k] Ix. cbn [fst snd]. apply nev_bind; [|auto with nev]. apply nev_measure_prm; auto.
  apply env_conds_ok in E as (A & _ & B); auto. cbn [request] in A.
  assert (Hx : dmem conds x = true) by (apply A; apply in_map_iff; exists (x, k); auto). apply dmem_Some in Hx as [v Hv].
  specialize (B x v Hv). cbn [dev_prm] in B. destruct (dget d x); [right; discriminate|]. left. apply dmem_keys. tauto.
Qed.

Lemma nev_stress_step e d i (s : strs_spec V) st rep : device_not_raising MissingParamError d -> nev (stress_step e d i s st rep).
Proof.
  intros N. unfold stress_step. apply nev_bind; [auto with nev|intros]. apply nev_bind.
  - apply nev_foldM. intros s0 [nm p] Ip. eapply nev_stress_prm; eauto. unfold deg_prms in Ip. apply in_flat_map in Ip as ([k q] & I & J).
    cbn [fst snd] in J. destruct q; [|destruct J]. destruct J as [J|[]]. injection J as -> ->. auto.
  - intros. unfold add_time_td, sub_time_td. ncases.
Qed.

Lemma nev_run e d l : device_not_raising MissingParamError d -> (forall m, In (SMeas m) l -> dwf (ms_conds m)) ->
  forall i st rep, nev (run_steps e d i l st rep).
Proof.
  intros N W. induction l as [|x l IH]; intros i st rep; [apply nev_ret|].
  intros w. rewrite run_cons. revert w. apply nev_bind.
  - destruct x as [m|s|o]; cbn [sim_step fst snd].
    + apply nev_meas_step; auto. apply W. now left.
    + now apply nev_stress_step.
    + apply nev_ret.
  - intros [st1 rep1]. apply IH. intros. apply W. now right.
Qed.

Lemma nev_dev_init d counts C L : device_not_raising MissingParamError d -> nev (dev_init_state d counts C L).
Proof.
  intros N. unfold dev_init_state. apply nev_bind; [|auto with nev]. apply nev_foldM. intros g [k q] I. specialize (N _ _ I). unfold gen_prm_state. cbn [fst snd].
  apply nev_bind; [auto with nev|intros]. apply nev_bind; [destruct q; unfold prm_latents; ncases|intros].
  apply nev_bind; [ncases|intros]. apply nev_bind; [|auto with nev]. destruct q as [p|c]; [|auto with nev]. destruct N as (N1 & _).
  unfold gen_init_vals. ncases.
Qed.

Lemma nev_simulate e d l C L init : device_not_raising MissingParamError d -> (forall m, In (SMeas m) l -> dwf (ms_conds m)) ->
  nev (simulate e d l C L init).
Proof.
  intros N W. unfold simulate. destruct init as [st|]; [now apply nev_run|]. apply nev_bind.
  - unfold gen_init_state. cbn. apply nev_bind; [now apply nev_dev_init|auto with nev].
  - intros r. destruct (ir_report r); [now apply nev_run|apply nev_raise; discriminate].
Qed.

(** ** Unknown names raise KeyError *)
Lemma gen_env_unknown eobjs vr iobjs ir e base (l1 l2 : dict nat) x k info d stress nc nl w r w' :
  env_init eobjs vr iobjs ir = Ok e -> dwf base ->
  dget d x = None -> ~ In x (dkeys base) ->
  gen_env_cond_vals e base (PCounts l1) info (Some d) stress nc nl w = (Ok r, w') ->
  gen_env_cond_vals e base (PCounts (l1 ++ (x, k) :: l2)) info (Some d) stress nc nl w = (Err KeyError, w').
Proof.
  intros He W Dx Bx E. unfold gen_env_cond_vals in *.
  set (C := match info with Some i => ti_chps i | None => nc end) in *. set (L := match info with Some i => ti_lots i | None => nl end) in *.
  apply bind_ok in E as ([bs cs] & w1 & E1 & E). rewrite (bind_eval _ _ _ _ _ E1).
  erewrite bind_eval in E by reflexivity. erewrite bind_eval by reflexivity. cbn [fst snd] in *.
  unfold dkeys at 2. rewrite map_app, foldM_app. fold (dkeys l1).
  assert (G : forall cnt, (forall y n, dget l1 y = Some n -> dget cnt y = Some n) -> forall l acc r w w',
    foldM (fun acc prm =>
            (v <- (match dget d prm with
                   | Some q => gen_prm_conds e cs l1 prm (dependencies q (dkeys base) stress)
                   | None => gen_sensor_conds e bs l1 prm
                   end) ;; ret (dset acc prm v))%m) l acc w = (Ok r, w') ->
    foldM (fun acc prm =>
            (v <- (match dget d prm with
                   | Some q => gen_prm_conds e cs cnt prm (dependencies q (dkeys base) stress)
                   | None => gen_sensor_conds e bs cnt prm
                   end) ;; ret (dset acc prm v))%m) l acc w = (Ok r, w')).
  { clear E r w'. intros cnt Hc. induction l as [|y l IH]; intros acc r w0 w' E; cbn [foldM] in *; auto.
    apply bind_ok in E as (a & w2 & E2 & E). apply bind_ok in E2 as (v & w3 & E2 & E3). apply ret_ok in E3 as [-> ->].
    erewrite bind_eval; [eapply IH; exact E|]. erewrite bind_eval; [reflexivity|]. destruct (dget d y) as [q|].
    - unfold gen_prm_conds in *. revert E2. generalize (dependencies q (dkeys base) stress) (@nil (string * pyval V)) w0. clear - Hc.
      induction l as [|c l IH]; intros a0 w0 E; cbn [foldM] in *; auto.
      apply bind_ok in E as (a & w2 & E2 & E). erewrite bind_eval; [eapply IH; exact E|].
      apply bind_lift_ok in E2 as (m & Em & E2). apply bind_lift_ok in E2 as (c0 & Ec & E2). apply bind_lift_ok in E2 as (n & En & E2).
      erewrite bind_eval by (unfold lift; rewrite Em; reflexivity). erewrite bind_eval by (unfold lift; rewrite Ec; reflexivity).
      apply dgetE_ok in En. apply Hc in En. unfold dgetE. rewrite En. erewrite bind_eval by reflexivity. exact E2.
    - unfold gen_sensor_conds in *.
      apply bind_lift_ok in E2 as (m & Em & E2). apply bind_lift_ok in E2 as (c0 & Ec & E2). apply bind_lift_ok in E2 as (n & En & E2).
      erewrite bind_eval by (unfold lift; rewrite Em; reflexivity). erewrite bind_eval by (unfold lift; rewrite Ec; reflexivity).
      apply dgetE_ok in En. apply Hc in En. unfold dgetE at 1. rewrite En. erewrite bind_eval by reflexivity. exact E2. }
  erewrite bind_eval; [|apply (G (l1 ++ (x, k) :: l2)); [|exact E]].
  - cbn [map fst foldM]. apply bind_eval_err. apply bind_eval_err. rewrite Dx. unfold gen_sensor_conds.
    destruct (vrtn_total _ _ _ _ _ x He) as [m Em]. erewrite bind_eval by (unfold lift; rewrite Em; reflexivity).
    apply bind_eval_err. unfold lift, dgetE. unfold gen_chip_conds in E1. apply chip_conds_ok in E1 as [_ B2]; [|exact W].
    destruct (B2 x) as [-> _]; [now apply dget_None_keys|]. reflexivity.
  - intros y n. clear. induction l1 as [|[a b] l1 IH]; cbn [dget app]; [discriminate|]. destruct (String.eqb y a); auto.
Qed.

Lemma run_unknown eobjs vr iobjs ir e d pre (m : meas_spec V) post l1 l2 x k i st0 rep0 w0 st rep w r w' :
  env_init eobjs vr iobjs ir = Ok e -> dwf (ms_conds m) -> ms_counts m = l1 ++ (x, k) :: l2 ->
  dget d x = None -> ~ In x (dkeys (ms_conds m)) ->
  run_steps e d i pre st0 rep0 w0 = (Ok (st, rep), w) ->
  gen_env_cond_vals e (ms_conds m) (PCounts l1) (Some (info_of rep)) (Some d) false 1 1 w = (Ok r, w') ->
  run_steps e d i (pre ++ SMeas m :: post) st0 rep0 w0 = (Err KeyError, w').
Proof.
  intros He W Em Dx Bx E1 E2. unfold run_steps. rewrite enumerate_app, foldM_app. unfold run_steps in E1. rewrite (bind_eval _ _ _ _ _ E1).
  cbn [enumerate foldM]. apply bind_eval_err. cbn [sim_step fst snd]. unfold meas_step. apply bind_eval_err. rewrite Em.
  eapply gen_env_unknown; eauto.
Qed.

(** A successful simulation knows every name it measures. *)
Lemma simulate_known e d l C L init w r w' (m : meas_spec V) x : dwf (ms_conds m) ->
  simulate e d l C L init w = (Ok r, w') -> In (SMeas m) l -> In x (dkeys (ms_counts m)) ->
  dget d x <> None \/ In x (dkeys (ms_conds m)).
Proof.
  intros W E I Ix.
  assert (G : forall l i st rep w r w', run_steps e d i l st rep w = (Ok r, w') -> In (SMeas m) l -> dget d x <> None \/ In x (dkeys (ms_conds m))).
  { clear - W Ix. induction l as [|s l IH]; intros i st rep w r w' E I; [destruct I|]. rewrite run_cons in E. apply bind_ok in E as ([st1 rep1] & w1 & E1 & E).
    destruct I as [->|I]; [|eauto]. cbn [sim_step fst snd] in E1. apply meas_step_ok in E1 as (conds & rows & w2 & E1 & _).
    apply env_conds_ok in E1 as (A & _ & B); auto. cbn [request] in A. apply A in Ix. apply dmem_Some in Ix as [v Hv].
    specialize (B x v Hv). cbn [dev_prm] in B. destruct (dget d x); [left; discriminate|tauto]. }
  unfold simulate in E. destruct init as [st|]; [eauto|]. apply bind_ok in E as (r0 & w1 & _ & E). destruct (ir_report r0); [eauto|discriminate].
Qed.

(** ** C59 *)
Lemma init_state_counts e d pre s post C L st w r w' name p :
  simulate e d (pre ++ SStrs s :: post) C L (Some st) w = (Ok r, w') ->
  In (name, p) (deg_prms d) -> dget (calc_samples_needed (pre ++ SStrs s :: post)) name <> None.
Proof.
  intros E I. unfold simulate in E. set (c := calc_samples_needed _). 
  assert (G : forall l i st rep w r w', run_steps e d i l st rep w = (Ok r, w') -> In (SStrs s) l -> dget (rp_counts rep) name <> None).
  { clear - I. induction l as [|x l IH]; intros i st rep w r w' E J; [destruct J|]. rewrite run_cons in E. apply bind_ok in E as ([st1 rep1] & w1 & E1 & E).
    destruct J as [->|J].
    - cbn [sim_step fst snd] in E1. apply stress_step_ok in E1 as (conds & st2 & w2 & y & _ & E2 & _).
      apply in_split in I as (a & b & Eq). rewrite Eq, foldM_app in E2. apply bind_ok in E2 as (s1 & w3 & _ & E2). cbn [foldM] in E2.
      apply bind_ok in E2 as (s2 & w4 & E2 & _). unfold stress_prm in E2. apply bind_lift_ok in E2 as (n & En & _). cbn [fst] in En. apply dgetE_ok in En. congruence.
    - apply IH in E; auto. destruct x as [m|s'|o]; cbn [sim_step fst snd] in E1.
      + apply meas_step_ok in E1 as (? & ? & ? & _ & _ & _ & ->). exact E.
      + apply stress_step_ok in E1 as (? & ? & ? & ? & _ & _ & _ & _ & ->). exact E.
      + apply ret_ok in E1 as [E1 ->]. injection E1 as -> ->. exact E. }
  eapply G in E; [|apply in_elt]. exact E.
Qed.

(** exact error for a single degraded parameter *)
Lemma init_state_keyerror eobjs vr iobjs ir e d (s : strs_spec V) post C L st w name p b w1 :
  env_init eobjs vr iobjs ir = Ok e -> dwf (ss_conds s) ->
  deg_prms d = [(name, p)] -> dget d name = Some (PDeg p) ->
  dget (calc_samples_needed (SStrs s :: post)) name = None ->
  gen_chip_conds e C L (ss_conds s) w = (Ok b, w1) ->
  simulate e d (SStrs s :: post) C L (Some st) w = (Err KeyError, w1).
Proof.
  intros He W Dp Dn Cn Ec. unfold simulate. rewrite run_cons. apply bind_eval_err. cbn [sim_step fst snd]. unfold stress_step. rewrite Dp. cbn [map fst].
  destruct b as [bs cs]. pose proof Ec as Ec'. unfold gen_chip_conds in Ec'. apply chip_conds_ok in Ec' as [B1 B2]; [|exact W].
  unfold report_init. cbn [info_of rp_chps rp_lots rp_counts].
  assert (Gd : dependencies (PDeg p) (dkeys (ss_conds s)) true = [] \/ exists c l, dependencies (PDeg p) (dkeys (ss_conds s)) true = c :: l)
    by (destruct (dependencies _ _ _); eauto).
  destruct Gd as [Gd|(c & l & Gd)].
  - erewrite bind_eval.
    2:{ unfold gen_env_cond_vals. cbn [ti_chps ti_lots ti_counts info_of]. rewrite (bind_eval _ _ _ _ _ Ec). erewrite bind_eval by reflexivity. cbn [fst snd foldM].
        rewrite Dn, Gd. unfold gen_prm_conds. cbn [foldM]. erewrite bind_eval by reflexivity. reflexivity. }
    apply bind_eval_err. cbn [foldM]. apply bind_eval_err. unfold stress_prm. cbn [fst]. apply bind_eval_err. unfold lift, dgetE. cbn [rp_counts]. now rewrite Cn.
  - apply bind_eval_err. unfold gen_env_cond_vals. cbn [ti_chps ti_lots ti_counts info_of]. rewrite (bind_eval _ _ _ _ _ Ec). erewrite bind_eval by reflexivity. cbn [fst snd foldM].
    apply bind_eval_err. apply bind_eval_err. rewrite Dn, Gd. unfold gen_prm_conds. cbn [foldM]. apply bind_eval_err.
    destruct (vrtn_total _ _ _ _ _ c He) as [m Em]. erewrite bind_eval by (unfold lift; rewrite Em; reflexivity).
    assert (Ic : In c (dkeys (ss_conds s))) by (apply (depends_In (PDeg p) (dkeys (ss_conds s)) true c); rewrite Gd; now left).
    apply dmem_keys, dmem_Some in Ic as [v0 Hv]. destruct (B1 _ _ Hv) as (x & y & _ & Hy & _). cbn [snd].
    erewrite bind_eval by (unfold lift, dgetE; rewrite Hy; reflexivity). apply bind_eval_err. unfold lift, dgetE. cbn [ti_counts info_of rp_counts]. now rewrite Cn.
Qed.

Lemma run_counts e d l : forall i st rep w st' rep' w',
  run_steps e d i l st rep w = (Ok (st', rep'), w') -> rp_counts rep' = rp_counts rep.
Proof.
  induction l as [|x l IH]; intros i st rep w st' rep' w' E.
  - apply ret_ok in E as [E ->]. injection E as -> ->. reflexivity.
  - rewrite run_cons in E. apply bind_ok in E as ([st1 rep1] & w1 & E1 & E). cbn [fst snd] in E. apply IH in E. rewrite E. clear E IH.
    destruct x as [m|s'|o]; cbn [sim_step fst snd] in E1.
    + apply meas_step_ok in E1 as (? & ? & ? & _ & _ & _ & ->). reflexivity.
    + apply stress_step_ok in E1 as (? & ? & ? & ? & _ & _ & _ & _ & ->). reflexivity.
    + apply ret_ok in E1 as [E1 ->]. injection E1 as -> ->. reflexivity.
Qed.

Lemma simulate_counts_init e d l C L st w st' rep' w' prm n :
  simulate e d l C L (Some st) w = (Ok (st', rep'), w') ->
  dget (rp_counts rep') prm = Some n <-> requests l prm n /\ forall k, requests l prm k -> k <= n.
Proof. intros E. unfold simulate in E. apply run_counts in E. rewrite E. cbn [report_init rp_counts]. apply calc_samples_max. Qed.

Lemma init_state_unmeasured e d l s C L st w name p :
  In (SStrs s) l -> In (name, PDeg p) d -> (forall m, In (SMeas m) l -> ~ In name (dkeys (ms_counts m))) ->
  forall r w', simulate e d l C L (Some st) w <> (Ok r, w').
Proof.
  intros I J N r w' E. apply in_split in I as (pre & post & ->). eapply init_state_counts with (name := name) (p := p) in E.
  - apply E. apply calc_samples_none. intros n (m & I & K). apply (N m I). apply (in_map fst) in K. exact K.
  - unfold deg_prms. apply in_flat_map. exists (name, PDeg p). split; auto. now left.
Qed.
End L.
