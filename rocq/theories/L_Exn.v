(** Exceptions pass through simulations: a congruence for every function of the
    model. *)
From Verif Require Import M_Base M_Num M_Nd M_RandVar M_Latent M_Time M_TestSpec M_Minimize M_Device M_Report M_Env M_Sim
  S_TestSpec S_Device S_Sim S_Exn L_Base L_Nd L_Sim.
Open Scope nat_scope.

Section Mon.
Variable X : exn -> Prop.
Notation sw := (stops_with X).
Lemma sw_refl {A} (m : M A) : sw m m. Proof. intros w. now left. Qed.
Lemma sw_bind {A B} (m m' : M A) (f f' : A -> M B) : sw m m' -> (forall a, sw (f a) (f' a)) -> sw (bind m f) (bind m' f').
Proof.
  intros Hm Hf w. unfold bind. destruct (Hm w) as [->|(x & w1 & -> & Hx)].
  - destruct (m w) as [[a|e] w1]; [apply Hf|now left].
  - right. exists x, w1. auto.
Qed.
Lemma sw_foldM {A B S} (R : A -> B -> Prop) (f : S -> A -> M S) (g : S -> B -> M S) l l' :
  Forall2 R l l' -> (forall s a b, R a b -> sw (f s a) (g s b)) -> forall s, sw (foldM f l s) (foldM g l' s).
Proof.
  intros F Hf. induction F as [|a b l l' H F IH]; intros s; cbn [foldM]; [apply sw_refl|].
  apply sw_bind; auto.
Qed.
Lemma sw_foldM_same {A S} (f g : S -> A -> M S) l :
  (forall s a, In a l -> sw (f s a) (g s a)) -> forall s, sw (foldM f l s) (foldM g l s).
Proof.
  induction l as [|a l IH]; intros Hf s; cbn [foldM]; [apply sw_refl|].
  apply sw_bind; [apply Hf; now left|]. intros. apply IH. intros. apply Hf. now right.
Qed.
Lemma sw_mapM {A B} (f g : A -> M B) l : (forall x, sw (f x) (g x)) -> sw (mapM f l) (mapM g l).
Proof. intros Hf. induction l as [|a l IH]; cbn [mapM]; [apply sw_refl|]. apply sw_bind; [auto|]. intros. apply sw_bind; [auto|]. intros. apply sw_refl. Qed.
Lemma sw_try {A} (m m' h h' : M A) : ~ X ValueError -> sw m m' -> sw h h' -> sw (try_value_error m h) (try_value_error m' h').
Proof.
  intros N Hm Hh w. unfold try_value_error. destruct (Hm w) as [->|(x & w1 & -> & Hx)].
  - destruct (m w) as [[a|e] w1]; [now left|]. destruct e; auto.
  - right. exists x, w1. split; [|exact Hx]. destruct x; try reflexivity. now elim N.
Qed.
End Mon.
Lemma sw_mono {A} (X Y : exn -> Prop) (m m' : M A) : (forall x, X x -> Y x) -> stops_with X m m' -> stops_with Y m m'.
Proof. intros I H w. destruct (H w) as [E|(x & w1 & E & Hx)]; [now left|]. right. exists x, w1. auto. Qed.

Section L.
Context {V : Type} `{NumOps V} `{Rng V} `{HashOrd}.
Implicit Types (d : device V).

Lemma guarded_args X (f f' : eqn V) : guarded_by X f f' -> compute_args f' = compute_args f.
Proof. intros (A & B & C & _). unfold compute_args. now rewrite A, B, C. Qed.
Lemma sw_call X (f f' : eqn V) a : guarded_by X f f' -> stops_with X (call f a) (call f' a).
Proof.
  intros (A & B & C & D). unfold call. rewrite A, B, C. destruct (_ && _); [apply D|apply sw_refl].
Qed.

Section One.
Variable X : exn -> Prop.
Hypothesis NV : ~ X ValueError.
Notation sw := (stops_with X).

Lemma sw_loop (f f' : eqn V) a L C D : guarded_by X f f' -> sw (loop_compute f a L C D) (loop_compute f' a L C D).
Proof.
  intros G. unfold loop_compute, loop_elem. apply sw_bind; [|intros; apply sw_refl]. apply sw_mapM. intros x.
  destruct x as [|i [|j [|k [|]]]]; try apply sw_refl. apply sw_bind; [apply sw_refl|]. intros.
  apply sw_bind; [now apply sw_call|]. intros. apply sw_refl.
Qed.
Lemma sw_call_or_loop (f f' : eqn V) a L C D : guarded_by X f f' -> sw (call_or_loop f a L C D) (call_or_loop f' a L C D).
Proof. intros G. apply sw_try; auto; [now apply sw_call|now apply sw_loop]. Qed.

Lemma sw_minimize (F F' : list V -> M (list V)) n lo hi p eps it lg : (forall x, sw (F x) (F' x)) ->
  sw (minimize F n lo hi p eps it lg) (minimize F' n lo hi p eps it lg).
Proof.
  intros N. unfold minimize, minimize_run, mrun. apply sw_bind; [|intros; apply sw_refl].
  assert (Ev : forall xs, sw (evalF lg F xs) (evalF lg F' xs)) by (intros; unfold evalF; apply sw_bind; [apply N|intros; apply sw_refl]).
  apply sw_bind; [apply Ev|]. intros f0.
  match goal with |- sw (mloop _ _ _ _ _ ?s ?e) _ => generalize e; generalize s end.
  induction it as [|it IH]; intros ss ev; cbn [mloop]; destruct (forallb _ ss); try apply sw_refl. apply sw_bind; [apply Ev|]. intros. apply IH.
Qed.

Lemma sw_mech_args (m m' : mech V) t c l : mech_guarded X m m' -> mech_args m' t c l = mech_args m t c l.
Proof. intros (_ & _ & _ & _ & G). unfold mech_args. now rewrite (guarded_args _ _ _ G). Qed.
Lemma sw_base (m m' : mech V) t p c l L C D : mech_guarded X m m' -> sw (base_deg_vals m t p c l L C D) (base_deg_vals m' t p c l L C D).
Proof.
  intros G. unfold base_deg_vals. apply sw_bind; [apply sw_refl|]. intros. apply sw_bind; [apply sw_refl|]. intros.
  destruct (bshape _ _); [|apply sw_refl]. rewrite (sw_mech_args _ _ _ _ _ G). apply sw_bind; [|intros; apply sw_refl].
  destruct G as (_ & _ & _ & _ & G). now apply sw_call_or_loop.
Qed.
Lemma sw_mech_deg (m m' : mech V) t p c l L C D : mech_guarded X m m' -> sw (mech_deg_vals m t p c l L C D) (mech_deg_vals m' t p c l L C D).
Proof.
  intros G. pose proof G as (K & U & _). unfold mech_deg_vals. rewrite K, U. destruct (mc_kind m); [now apply sw_base|].
  apply sw_bind; [apply sw_refl|]. intros. apply sw_bind; [now apply sw_base|]. intros. apply sw_refl.
Qed.
Lemma sw_mech_equiv (m m' : mech V) v c l L C D : mech_guarded X m m' -> sw (mech_equiv_time m v c l L C D) (mech_equiv_time m' v c l L C D).
Proof.
  intros G. pose proof G as (K & _ & _ & _ & G'). unfold mech_equiv_time. rewrite K. destruct (mc_kind m); [|apply sw_refl].
  apply sw_bind; [apply sw_refl|]. intros a. apply sw_bind; [|intros; apply sw_refl]. apply sw_minimize. intros ts.
  unfold equiv_obj. apply sw_bind; [|intros; apply sw_refl]. unfold residue. rewrite (sw_mech_args _ _ _ _ _ G). apply sw_try; auto.
  - apply sw_bind; [now apply sw_call|intros; apply sw_refl].
  - apply sw_bind; [now apply sw_loop|intros; apply sw_refl].
Qed.
End One.

Section Dev.
Variables X Y : exn -> Prop.
Hypothesis NV : ~ Y ValueError.
Notation sw := (stops_with (fun x => X x \/ Y x)).
Lemma swX {A} (m m' : M A) : stops_with X m m' -> sw m m'. Proof. apply sw_mono. auto. Qed.
Lemma swY {A} (m m' : M A) : stops_with Y m m' -> sw m m'. Proof. apply sw_mono. auto. Qed.

Definition mrel (a b : string * mech V) : Prop := fst b = fst a /\ mech_guarded Y (snd a) (snd b).
Definition prel (a b : string * prm V) : Prop := fst b = fst a /\ prm_guarded X Y (snd a) (snd b).

Lemma device_keys d d' : device_guarded X Y d d' -> dkeys d' = dkeys d.
Proof. intros F. unfold dkeys. induction F as [|a b l l' [E _] F IH]; cbn [map]; congruence. Qed.
Lemma device_get d d' x : device_guarded X Y d d' ->
  match dget d x, dget d' x with
  | Some q, Some q' => prm_guarded X Y q q'
  | None, None => True
  | _, _ => False
  end.
Proof.
  intros F. induction F as [|[k q] [k' q'] l l' [E G] F IH]; cbn [dget]; auto. cbn [fst snd] in *. subst k'.
  destruct (String.eqb x k); auto.
Qed.
Lemma mechs_get (l l' : dict (mech V)) x : Forall2 mrel l l' ->
  match dget l x, dget l' x with
  | Some q, Some q' => mech_guarded Y q q'
  | None, None => True
  | _, _ => False
  end.
Proof.
  intros F. induction F as [|[k q] [k' q'] l l' [E G] F IH]; cbn [dget]; auto. cbn [fst snd] in *. subst k'.
  destruct (String.eqb x k); auto.
Qed.
Lemma guarded_dependencies (q q' : prm V) conds s : prm_guarded X Y q q' -> dependencies q' conds s = dependencies q conds s.
Proof.
  destruct q as [p|c], q' as [p'|c']; cbn [prm_guarded]; try tauto.
  - intros (_ & (_ & A) & _ & (_ & B) & F). cbn [dependencies]. unfold deg_dependencies. rewrite (guarded_args _ _ _ A), (guarded_args _ _ _ B).
    f_equal. f_equal. destruct s; [|reflexivity]. induction F as [|a b l l' [_ (_ & _ & _ & _ & E)] F IH]; cbn [flat_map]; [reflexivity|].
    now rewrite (guarded_args _ _ _ E), IH.
  - intros (_ & A). cbn [dependencies]. now rewrite (guarded_args _ _ _ A).
Qed.
Lemma guarded_required (c c' : lmdl V) names : lmdl_guarded X c c' -> required_prms c' names = required_prms c names.
Proof. intros (_ & A). unfold required_prms. now rewrite (guarded_args _ _ _ A). Qed.
Lemma guarded_augment d d' : device_guarded X Y d d' -> forall l acc, augment d' acc l = augment d acc l.
Proof.
  intros F. unfold augment. induction l as [|x l IH]; intros acc; cbn [fold_left]; [reflexivity|]. rewrite IH. f_equal.
  pose proof (device_get d d' x F) as G. destruct (dget d x) as [[p|c]|], (dget d' x) as [[p'|c']|]; cbn [prm_guarded] in G; try tauto; try reflexivity.
  unfold raise_counts. now rewrite (guarded_required _ _ _ G), (device_keys _ _ F).
Qed.
Lemma deg_prms_rel d d' : device_guarded X Y d d' ->
  Forall2 (fun a b : string * degprm V => fst b = fst a /\ prm_guarded X Y (PDeg (snd a)) (PDeg (snd b))) (deg_prms d) (deg_prms d').
Proof.
  intros F. unfold deg_prms. induction F as [|[k q] [k' q'] l l' [E G] F IH]; cbn [flat_map fst snd]; [constructor|]. cbn [fst snd] in *.
  destruct q, q'; cbn [prm_guarded] in G; try tauto; cbn [app]; auto.
Qed.
Lemma deg_names d d' : device_guarded X Y d d' -> map fst (deg_prms d') = map fst (deg_prms d).
Proof. intros F. apply deg_prms_rel in F. induction F as [|a b l l' [E _] F IH]; cbn [map]; congruence. Qed.

Lemma guarded_gen_env e d d' base r info s nc nl : device_guarded X Y d d' ->
  sw (gen_env_cond_vals e base r info (Some d) s nc nl) (gen_env_cond_vals e base r info (Some d') s nc nl).
Proof.
  intros F. unfold gen_env_cond_vals. apply sw_bind; [apply sw_refl|]. intros. apply sw_bind; [apply sw_refl|]. intros.
  apply sw_foldM_same. intros acc prm _. apply sw_bind; [|intros; apply sw_refl].
  pose proof (device_get d d' prm F) as G. destruct (dget d prm), (dget d' prm); try tauto; [|apply sw_refl].
  rewrite (guarded_dependencies _ _ _ _ G). apply sw_refl.
Qed.

Lemma guarded_latents (m m' : lmdl V) D C L P : lmdl_guarded P m m' -> gen_latents m' D C L = gen_latents m D C L.
Proof. intros (A & _). unfold gen_latents. now rewrite A. Qed.

Lemma sw_equiv_times (p p' : degprm V) mv cs m0 ls L C D : prm_guarded X Y (PDeg p) (PDeg p') ->
  sw (prm_equiv_times p mv cs m0 ls L C D) (prm_equiv_times p' mv cs m0 ls L C D).
Proof.
  intros (_ & _ & _ & _ & F). unfold prm_equiv_times. eapply sw_foldM; [exact F|]. intros s [k m] [k' m'] [E G]. cbn [fst snd] in *. subst k'.
  do 3 (apply sw_bind; [apply sw_refl|intros]). apply sw_bind; [|intros; apply sw_refl]. apply swY. now apply sw_mech_equiv.
Qed.
Lemma guarded_durations (p p' : degprm V) dur times : prm_guarded X Y (PDeg p) (PDeg p') -> add_durations p' dur times = add_durations p dur times.
Proof.
  intros (_ & _ & _ & _ & F). unfold add_durations. generalize (Ok times). induction times as [|x l IH]; intros acc; cbn [fold_left]; [reflexivity|].
  rewrite IH. f_equal. destruct acc; cbn [rbind]; [|reflexivity].
  pose proof (mechs_get _ _ (fst x) F) as G. unfold dgetE. destruct (dget (dp_mechs p) (fst x)), (dget (dp_mechs p') (fst x)); try tauto.
  cbn [rbind]. destruct G as (_ & _ & -> & _). reflexivity.
Qed.
Lemma sw_deg_vals (p p' : degprm V) times cs i0 ls mv L C D : prm_guarded X Y (PDeg p) (PDeg p') ->
  sw (prm_deg_vals p times cs i0 ls mv L C D) (prm_deg_vals p' times cs i0 ls mv L C D).
Proof.
  intros (_ & _ & U & (_ & O) & F). unfold prm_deg_vals. rewrite U. apply sw_bind.
  - eapply sw_foldM; [exact F|]. intros s [k m] [k' m'] [E G]. cbn [fst snd] in *. subst k'.
    do 3 (apply sw_bind; [apply sw_refl|intros]). apply sw_bind; [|intros; apply sw_refl]. apply swY. now apply sw_mech_deg.
  - intros st. rewrite (guarded_args _ _ _ O). apply sw_bind; [|intros; apply sw_refl]. apply swY. now apply sw_call_or_loop.
Qed.
Lemma sw_stress_prm conds rep dur st name (p p' : degprm V) : prm_guarded X Y (PDeg p) (PDeg p') ->
  sw (stress_prm conds rep dur st (name, p)) (stress_prm conds rep dur st (name, p')).
Proof.
  intros G. unfold stress_prm. cbn [fst snd]. do 5 (apply sw_bind; [apply sw_refl|intros]). apply sw_bind; [now apply sw_equiv_times|intros].
  rewrite (guarded_durations _ _ _ _ G). do 2 (apply sw_bind; [apply sw_refl|intros]). apply sw_bind; [now apply sw_deg_vals|intros]. apply sw_refl.
Qed.
Lemma sw_stress_step e d d' i s st rep : device_guarded X Y d d' -> sw (stress_step e d i s st rep) (stress_step e d' i s st rep).
Proof.
  intros F. unfold stress_step. rewrite (deg_names _ _ F). apply sw_bind; [now apply guarded_gen_env|intros]. apply sw_bind; [|intros; apply sw_refl].
  eapply sw_foldM; [exact (deg_prms_rel _ _ F)|]. intros s0 [k p] [k' p'] [E G]. cbn [fst snd] in *. subst k'. now apply sw_stress_prm.
Qed.
Lemma guarded_unitaries (l l' : dict (mech V)) : Forall2 mrel l l' -> forall acc,
  fold_left (fun acc (nm : string * mech V) => dset acc (fst nm) (PNum (mc_unitary (snd nm)))) l' acc =
  fold_left (fun acc (nm : string * mech V) => dset acc (fst nm) (PNum (mc_unitary (snd nm)))) l acc.
Proof.
  intros F. induction F as [|[k m] [k' m'] l l' [E (_ & U & _)] F IH]; intros acc; cbn [fold_left fst snd] in *; [reflexivity|]. subst k'. now rewrite U, IH.
Qed.
Lemma sw_cond_shifted (p p' : degprm V) cs deg ls L C K : prm_guarded X Y (PDeg p) (PDeg p') ->
  sw (cond_shifted p cs deg ls L C K) (cond_shifted p' cs deg ls L C K).
Proof.
  intros (_ & (_ & G) & _ & (_ & O) & F). unfold cond_shifted. do 3 (apply sw_bind; [apply sw_refl|intros]). apply sw_bind.
  - unfold calc_cond_vals. rewrite (guarded_args _ _ _ G). apply swY. now apply sw_call_or_loop.
  - intros cv. rewrite (guarded_args _ _ _ O). rewrite (guarded_unitaries _ _ F). apply swY. now apply sw_call_or_loop.
Qed.
Lemma sw_circ (c c' : lmdl V) k cs ps ls : lmdl_guarded X c c' -> sw (circ_vals c k cs ps ls) (circ_vals c' k cs ps ls).
Proof.
  intros (_ & G). unfold circ_vals. rewrite (guarded_args _ _ _ G). apply sw_bind; [|intros; apply sw_refl]. apply swX. now apply sw_call.
Qed.
Lemma sw_measure_prm e d d' i conds sc st rep prm k : device_guarded X Y d d' ->
  sw (measure_prm e d i conds sc st rep prm k) (measure_prm e d' i conds sc st rep prm k).
Proof.
  intros F. unfold measure_prm. apply sw_bind; [|intros; apply sw_refl]. pose proof (device_get d d' prm F) as G.
  destruct (dget (st_prm st) prm) as [cur|]; destruct (dget d prm) as [[p|c]|], (dget d' prm) as [[p'|c']|]; cbn [prm_guarded] in G; try tauto; try apply sw_refl.
  - do 2 (apply sw_bind; [apply sw_refl|intros]). apply sw_bind; [now apply sw_cond_shifted|intros; apply sw_refl].
  - do 2 (apply sw_bind; [apply sw_refl|intros]). apply sw_bind; [now apply sw_circ|intros; apply sw_refl].
Qed.
Lemma sw_meas_step e d d' i m st rep : device_guarded X Y d d' -> sw (meas_step e d i m st rep) (meas_step e d' i m st rep).
Proof.
  intros F. unfold meas_step. apply sw_bind; [now apply guarded_gen_env|intros]. apply sw_bind; [|intros; apply sw_refl].
  apply sw_foldM_same. intros s [x k] _. apply sw_bind; [now apply sw_measure_prm|intros; apply sw_refl].
Qed.
Lemma sw_run e d d' l i st rep : device_guarded X Y d d' -> sw (run_steps e d i l st rep) (run_steps e d' i l st rep).
Proof.
  intros F. unfold run_steps. apply sw_foldM_same. intros sr [j x] _. unfold sim_step. cbn [fst snd].
  destruct x; [now apply sw_meas_step|now apply sw_stress_step|apply sw_refl].
Qed.
Lemma guarded_prm_latents (p p' : degprm V) D C L : prm_guarded X Y (PDeg p) (PDeg p') -> sw (prm_latents p D C L) (prm_latents p' D C L).
Proof.
  intros (_ & A & _ & B & F). unfold prm_latents. rewrite (guarded_latents _ _ _ _ _ _ A), (guarded_latents _ _ _ _ _ _ B).
  apply sw_bind; [apply sw_refl|intros]. apply sw_bind; [|intros; apply sw_refl]. eapply sw_foldM; [exact F|].
  intros s [k m] [k' m'] [E (_ & _ & _ & G)]. cbn [fst snd] in *. subst k'. rewrite (guarded_latents _ _ _ _ _ _ G). apply sw_refl.
Qed.
Lemma guarded_init_mech (p p' : degprm V) D C L : prm_guarded X Y (PDeg p) (PDeg p') -> prm_init_mech p' D C L = prm_init_mech p D C L.
Proof.
  intros (_ & _ & _ & _ & F). unfold prm_init_mech. generalize (@nil (string * pyval V)). induction F as [|[k m] [k' m'] l l' [E (_ & U & _)] F IH]; intros acc; cbn [fold_left fst snd] in *; [reflexivity|].
  subst k'. unfold mech_init_vals at 2. rewrite U. apply IH.
Qed.
Lemma sw_dev_init d d' counts C L : device_guarded X Y d d' -> sw (dev_init_state d counts C L) (dev_init_state d' counts C L).
Proof.
  intros F. unfold dev_init_state. apply sw_bind; [|intros; apply sw_refl]. eapply sw_foldM; [exact F|].
  intros g [k q] [k' q'] [E G]. cbn [fst snd] in *. subst k'. unfold gen_prm_state. cbn [fst snd]. apply sw_bind; [apply sw_refl|intros n].
  destruct q as [p|c], q' as [p'|c']; try (now elim G).
  - apply sw_bind; [now apply guarded_prm_latents|intros lats]. apply sw_bind; [apply sw_refl|intros counts'].
    rewrite (guarded_init_mech _ _ _ _ _ G). apply sw_bind; [|intros; apply sw_refl]. apply sw_bind; [apply sw_refl|intros]. apply sw_bind; [|intros; apply sw_refl].
    destruct G as (A & _). unfold gen_init_vals. rewrite (guarded_latents _ _ _ _ _ _ A). apply sw_bind; [apply sw_refl|intros]. destruct A as (_ & A). apply swX. now apply sw_call.
  - cbn [prm_guarded] in G. rewrite (guarded_latents _ _ _ _ _ _ G). apply sw_refl.
Qed.
Lemma sw_simulate e d d' l C L init : device_guarded X Y d d' -> sw (simulate e d l C L init) (simulate e d' l C L init).
Proof.
  intros F. unfold simulate. destruct init as [st|]; [now apply sw_run|]. apply sw_bind.
  - unfold gen_init_state. rewrite (guarded_augment _ _ F). apply sw_bind; [now apply sw_dev_init|intros; apply sw_refl].
  - intros r. destruct (ir_report r); [now apply sw_run|apply sw_refl].
Qed.
End Dev.
End L.
