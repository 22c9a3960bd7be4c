(** Which generators the functions of the model use. *)
From Coq Require Import QArith.
From Verif Require Import M_Sim S_Foot L_Base.
Open Scope nat_scope.

(** ** The monad *)
Section Monad.
Variable G : nat -> Prop.

Lemma confined_ret {A} (a : A) : confined G (ret a).
Proof. split; [reflexivity|]. intros w w' E; split; [reflexivity | auto]. Qed.
Lemma confined_raise {A} x : confined G (@raise A x).
Proof. split; [reflexivity|]. intros w w' E; split; [reflexivity | auto]. Qed.
Lemma confined_lift {A} (r : res A) : confined G (lift r).
Proof. split; [reflexivity|]. intros w w' E; split; [reflexivity | auto]. Qed.

Lemma confined_bind {A B} (m : M A) (f : A -> M B) :
  confined G m -> (forall a, confined G (f a)) -> confined G (bind m f).
Proof.
  intros [W R] F; split.
  - intros w g N. unfold bind. specialize (W w g N). destruct (m w) as [[a|x] w1]; cbn [fst snd] in *.
    + rewrite (proj1 (F a) w1 g N); exact W.
    + exact W.
  - intros w w' E. unfold bind. destruct (R w w' E) as [E1 E2].
    destruct (m w) as [r w1], (m w') as [r' w1']; cbn [fst snd] in *; subst r'.
    destruct r as [a|x]; cbn [fst snd]; [|split; [reflexivity | exact E2]].
    destruct (proj2 (F a) w1 w1') as [E3 E4]; [intros g Hg; apply E2, E, Hg|].
    split; [exact E3|]. intros g Eg; apply E4, E2, Eg.
Qed.

(** with the value known to come from a run *)
Lemma confined_bind_ok {A B} (m : M A) (f : A -> M B) (P : A -> Prop) :
  confined G m -> (forall w a w', m w = (Ok a, w') -> P a) -> (forall a, P a -> confined G (f a)) ->
  confined G (bind m f).
Proof.
  intros [W R] Hp F; split.
  - intros w g N. unfold bind. specialize (W w g N). destruct (m w) as [[a|x] w1] eqn:E; cbn [fst snd] in *.
    + rewrite (proj1 (F a (Hp _ _ _ E)) w1 g N); exact W.
    + exact W.
  - intros w w' E. unfold bind. destruct (R w w' E) as [E1 E2].
    destruct (m w) as [r w1] eqn:Em, (m w') as [r' w1']; cbn [fst snd] in *; subst r'.
    destruct r as [a|x]; cbn [fst snd]; [|split; [reflexivity | exact E2]].
    destruct (proj2 (F a (Hp _ _ _ Em)) w1 w1') as [E3 E4]; [intros g Hg; apply E2, E, Hg|].
    split; [exact E3|]. intros g Eg; apply E4, E2, Eg.
Qed.

Lemma confined_lift_bind {A B} (r : res A) (f : A -> M B) :
  (forall a, r = Ok a -> confined G (f a)) -> confined G (bind (lift r) f).
Proof.
  intros F. apply (confined_bind_ok _ _ (fun a => r = Ok a)); [apply confined_lift | | exact F].
  intros w a w' E; inversion E; reflexivity.
Qed.

Lemma confined_try {A} (m h : M A) : confined G m -> confined G h -> confined G (try_value_error m h).
Proof.
  intros [W R] [W' R']; split.
  - intros w g N. unfold try_value_error. specialize (W w g N).
    destruct (m w) as [[a|[]] w1]; cbn [fst snd] in *; try exact W.
    rewrite (W' w1 g N); exact W.
  - intros w w' E. unfold try_value_error. destruct (R w w' E) as [E1 E2].
    destruct (m w) as [r w1], (m w') as [r' w1']; cbn [fst snd] in *; subst r'.
    destruct r as [a|[]]; cbn [fst snd]; try (split; [reflexivity | exact E2]).
    destruct (R' w1 w1') as [E3 E4]; [intros g Hg; apply E2, E, Hg|].
    split; [exact E3|]. intros g Eg; apply E4, E2, Eg.
Qed.

Lemma confined_foldM {A S} (f : S -> A -> M S) l :
  (forall s a, In a l -> confined G (f s a)) -> forall s, confined G (foldM f l s).
Proof.
  induction l as [|a l IH]; intros F s; cbn; [apply confined_ret|].
  apply confined_bind; [apply F; left; reflexivity|]. intros s'. apply IH. intros; apply F; right; assumption.
Qed.
Lemma confined_mapM {A B} (f : A -> M B) l : (forall a, In a l -> confined G (f a)) -> confined G (mapM f l).
Proof.
  induction l as [|a l IH]; intros F; cbn; [apply confined_ret|].
  apply confined_bind; [apply F; left; reflexivity|]. intros y.
  apply confined_bind; [apply IH; intros; apply F; right; assumption|]. intros ys; apply confined_ret.
Qed.
End Monad.

(** consequences *)
Lemma confined_mono {A} (G G' : nat -> Prop) (m : M A) : (forall g, G g -> G' g) -> confined G m -> confined G' m.
Proof.
  intros I [W R]; split.
  - intros w g N; apply W; intros Hg; exact (N (I g Hg)).
  - intros w w' E. apply R. intros g Hg; apply E, I, Hg.
Qed.
Lemma confined_spares {A} (G : nat -> Prop) (m : M A) w g :
  confined (fun g => ~ G g) m -> G g -> snd (m w) g = w g.
Proof. intros [W _] Hg. apply W. intros N; exact (N Hg). Qed.

#[global] Hint Resolve confined_ret confined_raise confined_lift : foot.

Section Foot.
Context {V : Type} `{NumOps V} `{Rng V} `{HashOrd}.
Variable G : nat -> Prop.

Lemma rv_in_mono (G' : nat -> Prop) (r : rv V) : (forall g, G g -> G' g) -> rv_in G r -> rv_in G' r.
Proof. intros I [D|D]; [left; exact D | right; apply I, D]. Qed.

Lemma confined_sample (r : rv V) n : rv_in G r -> confined G (sample r n).
Proof.
  intros [[v E]|Hg]; unfold sample; [rewrite E; apply confined_ret|].
  assert (K : forall d, confined G (fun w => match params_numpy d with
      | Err e => (Err e, w)
      | Ok p => if rvalid p
                then let '(xs, s) := draws p n (w (rv_gen r)) in (Ok xs, wset w (rv_gen r) s)
                else (Err ValueError, w)
      end)).
  { intros d. split.
    - intros w g N. destruct (params_numpy d) as [p|x]; [|reflexivity].
      destruct (rvalid p); [|reflexivity]. destruct (draws p n (w (rv_gen r))) as [xs s]. cbn [snd].
      unfold wset. destruct (Nat.eqb_spec g (rv_gen r)); [subst; contradiction | reflexivity].
    - intros w w' E. destruct (params_numpy d) as [p|x]; [|split; [reflexivity | auto]].
      destruct (rvalid p); [|split; [reflexivity | auto]].
      rewrite (E _ Hg). destruct (draws p n (w' (rv_gen r))) as [xs s]. cbn [fst snd].
      split; [reflexivity|]. intros g Eg. unfold wset. destruct (g =? rv_gen r); [reflexivity | exact Eg]. }
  destruct (rv_dist r); try apply K. apply confined_ret.
Qed.

Lemma confined_gen_latent (o : lvar V) D C L : lvar_in G o -> confined G (gen_latent o D C L).
Proof.
  intros (I1 & I2 & I3). unfold gen_latent.
  apply confined_bind; [apply confined_sample, I3|intros lots].
  apply confined_bind; [apply confined_sample, I2|intros chps].
  apply confined_bind; [apply confined_sample, I1|intros devs]. apply confined_lift.
Qed.
Lemma confined_gen_latents (m : lmdl V) D C L : vars_in G m -> confined G (gen_latents m D C L).
Proof.
  intros I. unfold gen_latents. apply confined_foldM. intros s [x o] Hin.
  apply confined_bind; [apply confined_gen_latent, (I x), Hin | intros; apply confined_ret].
Qed.

Lemma confined_call (f : eqn V) a : eqn_in G f -> confined G (call f a).
Proof. intros I. unfold call. destruct (_ && _); [apply I | apply confined_raise]. Qed.
Lemma confined_loop (f : eqn V) a L C D : eqn_in G f -> confined G (loop_compute f a L C D).
Proof.
  intros I. unfold loop_compute. apply confined_bind; [|intros; apply confined_ret].
  apply confined_mapM. intros idx _. unfold loop_elem.
  destruct idx as [|i [|j [|k [|]]]]; try apply confined_raise.
  apply confined_bind; [apply confined_lift|]. intros b.
  apply confined_bind; [apply confined_call, I | intros; apply confined_lift].
Qed.
Lemma confined_call_or_loop (f : eqn V) a L C D : eqn_in G f -> confined G (call_or_loop f a L C D).
Proof. intros I. apply confined_try; [apply confined_call, I | apply confined_loop, I]. Qed.

Lemma confined_minimize (F : list V -> M (list V)) n lo hi p eps it lg :
  (forall xs, confined G (F xs)) -> confined G (minimize F n lo hi p eps it lg).
Proof.
  intros CF. unfold minimize, minimize_run, mrun.
  assert (CE : forall xs, confined G (evalF lg F xs)).
  { intros xs. unfold evalF. apply confined_bind; [apply CF|]. intros fs.
    destruct (_ =? _); [apply confined_ret | apply confined_raise]. }
  apply confined_bind; [|intros; apply confined_ret].
  apply confined_bind; [apply CE|]. intros f0.
  generalize (map (minit (if lg then nlog10 lo else lo) (if lg then nlog10 hi else hi)) f0).
  match goal with |- forall l, confined G (mloop _ _ _ _ _ _ ?E) => generalize E end.
  induction it as [|k IH]; intros ev ss; cbn [mloop].
  - destruct (forallb _ ss); apply confined_ret.
  - destruct (forallb _ ss); [apply confined_ret|].
    apply confined_bind; [apply CE | intros fus; apply IH].
Qed.

Lemma confined_mech_deg (m : mech V) t p c l L C D : eqn_in G (lm_eqn (mc_mdl m)) ->
  confined G (mech_deg_vals m t p c l L C D).
Proof.
  intros I.
  assert (B : confined G (base_deg_vals m t p c l L C D)).
  { unfold base_deg_vals. apply confined_bind; [apply confined_lift|intros t'].
    apply confined_bind; [apply confined_lift|intros p'].
    destruct (bshape _ _); [|apply confined_raise].
    apply confined_bind; [apply confined_call_or_loop, I|intros d].
    apply confined_bind; [apply confined_lift|intros d']. apply confined_bind; [apply confined_lift | intros; apply confined_ret]. }
  unfold mech_deg_vals. destruct (mc_kind m); [exact B|].
  apply confined_bind; [apply confined_lift|intros p'].
  apply confined_bind; [exact B|intros s]. apply confined_bind; [apply confined_lift|intros s'].
  apply confined_bind; [apply confined_lift | intros; apply confined_ret].
Qed.
Lemma confined_mech_equiv (m : mech V) v c l L C D : eqn_in G (lm_eqn (mc_mdl m)) ->
  confined G (mech_equiv_time m v c l L C D).
Proof.
  intros I. unfold mech_equiv_time. destruct (mc_kind m); [|destruct v; apply confined_ret].
  apply confined_bind; [apply confined_lift|intros a].
  apply confined_bind; [|intros; apply confined_ret]. apply confined_minimize. intros xs. unfold equiv_obj.
  apply confined_bind.
  - unfold residue. apply confined_try.
    + apply confined_bind; [apply confined_call, I | intros; apply confined_lift].
    + apply confined_bind; [apply confined_loop, I | intros; apply confined_lift].
  - intros r. apply confined_bind; [apply confined_lift|intros b].
    destruct (list_eq_dec _ _ _); [apply confined_ret | apply confined_raise].
Qed.
Lemma confined_prm_equiv (p : degprm V) mv c m0 l L C D : ageing_in G p ->
  confined G (prm_equiv_times p mv c m0 l L C D).
Proof.
  intros [I _]. unfold prm_equiv_times. apply confined_foldM. intros acc [n m] Hin. cbn [fst snd].
  apply confined_bind; [apply confined_lift|intros v]. apply confined_bind; [apply confined_lift|intros v'].
  apply confined_bind; [apply confined_lift|intros x].
  apply confined_bind; [apply confined_mech_equiv, (I n), Hin | intros; apply confined_ret].
Qed.
Lemma confined_prm_deg (p : degprm V) ts c i l mv L C D : ageing_in G p ->
  confined G (prm_deg_vals p ts c i l mv L C D).
Proof.
  intros [I I2]. unfold prm_deg_vals. apply confined_bind.
  - apply confined_foldM. intros acc [n m] Hin. cbn [fst snd].
    apply confined_bind; [apply confined_lift|intros v]. apply confined_bind; [apply confined_lift|intros v'].
    apply confined_bind; [apply confined_lift|intros x].
    apply confined_bind; [apply confined_mech_deg, (I n), Hin | intros; apply confined_ret].
  - intros st. apply confined_bind; [apply confined_call_or_loop, I2 | intros; apply confined_ret].
Qed.
Lemma confined_cond_shifted (p : degprm V) c v l L C K : reading_in G p ->
  confined G (cond_shifted p c v l L C K).
Proof.
  intros [I I2]. unfold cond_shifted.
  apply confined_bind; [apply confined_lift|intros n]. apply confined_bind; [apply confined_lift|intros al].
  apply confined_bind; [apply confined_lift|intros cl].
  apply confined_bind; [apply confined_call_or_loop, I | intros cv]. apply confined_call_or_loop, I2.
Qed.
Lemma confined_circ (c : lmdl V) k cs ps ls : eqn_in G (lm_eqn c) -> confined G (circ_vals c k cs ps ls).
Proof.
  intros I. unfold circ_vals. apply confined_bind; [apply confined_call, I|intros x].
  destruct x; auto with foot.
Qed.

(** the environment *)
Lemma confined_gen_batch (m : emdl V) b : rv_in G (em_bat m) -> confined G (gen_batch m b).
Proof. intros I. apply confined_bind; [apply confined_sample, I | intros; apply confined_lift]. Qed.
Lemma confined_gen_chp (m : emdl V) b C L : rv_in G (em_chp m) -> confined G (gen_chp m b C L).
Proof.
  intros I. apply confined_bind; [apply confined_lift|intros v]. apply confined_bind; [apply confined_lift|intros op].
  apply confined_bind; [apply confined_sample, I | intros; apply confined_lift].
Qed.
Lemma confined_gen_dev (m : emdl V) b D : rv_in G (em_dev m) -> confined G (gen_dev m b D).
Proof.
  intros I. apply confined_bind; [apply confined_lift|intros op].
  apply confined_bind; [apply confined_sample, I|intros xs].
  destruct (nshape b) as [|x [|y r]]; auto with foot.
Qed.

Lemma confined_chip_conds e C L (base : dict V) : (forall c, In c (dkeys base) -> shared_in G e c) ->
  confined G (gen_chip_conds e C L base).
Proof.
  intros I. unfold gen_chip_conds. apply confined_foldM. intros acc [c v] Hin. cbn [fst snd].
  apply confined_lift_bind. intros m Em.
  destruct (I c (in_map fst _ _ Hin) m Em) as [I1 I2].
  apply confined_bind; [apply confined_gen_batch, I1|intros b].
  apply confined_bind; [apply confined_gen_chp, I2 | intros; apply confined_ret].
Qed.
Lemma confined_prm_conds e chip counts prm conds : (forall c, In c conds -> device_in G e c) ->
  confined G (gen_prm_conds e chip counts prm conds).
Proof.
  intros I. unfold gen_prm_conds. apply confined_foldM. intros acc c Hin.
  apply confined_lift_bind. intros m Em. apply confined_bind; [apply confined_lift|intros x].
  apply confined_bind; [apply confined_lift|intros n].
  apply confined_bind; [apply confined_gen_dev, (I c Hin m Em) | intros; apply confined_ret].
Qed.
Lemma confined_sensor_conds e batch counts prm : (dmem batch prm = true -> cond_in G e prm) ->
  confined G (gen_sensor_conds e batch counts prm).
Proof.
  intros I. unfold gen_sensor_conds. apply confined_lift_bind. intros m Em.
  apply confined_lift_bind. intros b Eb.
  assert (Hm : dmem batch prm = true).
  { unfold dmem. unfold dgetE in Eb. destruct (dget batch prm); [reflexivity | discriminate]. }
  destruct (I Hm) as [I1 I2]. specialize (I1 m Em). specialize (I2 m Em).
  apply confined_bind; [apply confined_lift|intros n].
  apply confined_bind; [apply confined_gen_chp, I1|intros s].
  apply confined_bind; [apply confined_gen_dev, I2 | intros; apply confined_ret].
Qed.

Lemma chip_conds_keys e C L (base : dict V) w r w' : gen_chip_conds e C L base w = (Ok r, w') ->
  forall c, dmem (fst r) c = true -> In c (dkeys base).
Proof.
  intros E. unfold gen_chip_conds in E.
  refine (foldM_inv (fun acc : dict (nd V) * dict (nd V) => forall c, dmem (fst acc) c = true -> In c (dkeys base))
            _ _ _ _ _ _ _ _ E); [|intros c; discriminate].
  intros s [c v] w1 s' w1' Hin IH Es. cbn [fst snd] in Es.
  apply bind_lift_ok in Es as (m & Em & Es).
  apply bind_ok in Es as (b & w2 & _ & Es). apply bind_ok in Es as (x & w3 & _ & Es).
  inversion Es; subst; clear Es. cbn [fst]. intros c'. rewrite dmem_dset.
  intros Hc. apply Bool.orb_true_iff in Hc as [Hc|Hc]; [|apply IH, Hc].
  apply String.eqb_eq in Hc; subst c'. exact (in_map fst _ _ Hin).
Qed.

Lemma deps_in (q : prm V) conds b c : In c (dependencies q conds b) -> In c conds.
Proof.
  assert (U : forall (f : eqn V), In c (filter (fun a => smem a conds) (compute_args f)) -> In c conds).
  { intros f Hf. apply filter_In in Hf as [_ Hf]. apply smem_In, Hf. }
  destruct q as [p|l]; cbn [dependencies]; [|apply U].
  unfold deg_dependencies. intros Hc. apply (proj1 (proj2 (hord_ok _) c)) in Hc. apply in_app_or in Hc as [Hc|Hc]; [exact (U _ Hc)|].
  destruct b; [|exact (U _ Hc)]. apply in_flat_map in Hc as (x & _ & Hc). exact (U _ Hc).
Qed.

Lemma confined_env e (base : dict V) prms info dev b nc nl :
  (forall c, In c (dkeys base) -> cond_in G e c) ->
  confined G (gen_env_cond_vals e base prms info dev b nc nl).
Proof.
  intros I. unfold gen_env_cond_vals.
  apply (confined_bind_ok _ _ _ (fun r => forall c, dmem (fst r) c = true -> In c (dkeys base))).
  - apply confined_chip_conds. intros c Hc; apply I, Hc.
  - intros w r w' E. exact (chip_conds_keys _ _ _ _ _ _ _ E).
  - intros bc K. apply confined_bind.
    + destruct prms; [destruct info|]; auto with foot.
    + intros pc. apply confined_foldM. intros acc prm _.
      apply confined_bind; [|intros; apply confined_ret].
      destruct (match dev with Some d => dget d prm | None => None end) as [q|].
      * apply confined_prm_conds. intros c Hc. apply I, (deps_in _ _ _ _ Hc).
      * apply confined_sensor_conds. intros Hm. apply I, K, Hm.
Qed.

Lemma confined_measure_with e x vals : error_in G e x -> confined G (measure_with e x vals).
Proof.
  intros I. unfold measure_with. apply confined_lift_bind. intros f Ef.
  destruct f as [i|]; [|apply confined_raise]. unfold measure. apply confined_bind.
  - destruct (in_err i) as [r|] eqn:Er; [|apply confined_ret].
    apply confined_bind; [apply confined_sample, (I i r Ef Er) | intros; apply confined_ret].
  - intros v1. apply confined_bind; [apply confined_lift | intros; apply confined_ret].
Qed.

(** the steps *)
Lemma confined_stress_prm conds (rep : report V) dur st kv : ageing_in G (snd kv) ->
  confined G (stress_prm conds rep dur st kv).
Proof.
  intros I. unfold stress_prm.
  do 5 (apply confined_bind; [apply confined_lift|intros ?]).
  apply confined_bind; [apply confined_prm_equiv, I|intros eq].
  do 2 (apply confined_bind; [apply confined_lift|intros ?]).
  apply confined_bind; [apply confined_prm_deg, I | intros; apply confined_ret].
Qed.
Lemma confined_stress_step e (d : device V) i s st rep :
  (forall c, In c (dkeys (ss_conds s)) -> cond_in G e c) ->
  (forall n p, In (n, PDeg p) d -> ageing_in G p) -> confined G (stress_step e d i s st rep).
Proof.
  intros I Ia. unfold stress_step. apply confined_bind; [apply confined_env, I|intros conds].
  apply confined_bind.
  - apply confined_foldM. intros st1 [n p] Hin. apply confined_stress_prm. cbn [snd].
    unfold deg_prms in Hin. apply in_flat_map in Hin as ([n' q] & Hq & Hin). destruct q as [p'|]; [|destruct Hin].
    cbn in Hin. destruct Hin as [Hin|[]]. inversion Hin; subst. exact (Ia _ _ Hq).
  - intros st1. do 2 (apply confined_bind; [apply confined_lift|intros ?]). apply confined_ret.
Qed.
Lemma confined_measure_prm e (d : device V) i conds sc st (rep : report V) x k :
  error_in G e x -> (forall p, dget d x = Some (PDeg p) -> reading_in G p) ->
  (forall c, dget d x = Some (PCirc c) -> eqn_in G (lm_eqn c)) ->
  confined G (measure_prm e d i conds sc st rep x k).
Proof.
  intros I Id Ic. unfold measure_prm. apply confined_bind.
  - destruct (dget (st_prm st) x) as [cur|].
    + destruct (dget d x) as [[p|c]|]; auto with foot.
      do 2 (apply confined_bind; [apply confined_lift|intros ?]).
      apply confined_bind; [apply confined_cond_shifted, Id; reflexivity | intros; apply confined_lift].
    + destruct (dget d x) as [[p|c]|]; auto with foot.
      * do 2 (apply confined_bind; [apply confined_lift|intros ?]).
        apply confined_bind; [apply confined_circ, Ic; reflexivity | intros; apply confined_lift].
      * destruct (dmem sc x); auto with foot.
        do 2 (apply confined_bind; [apply confined_lift|intros ?]). apply confined_lift.
  - intros rows. apply confined_bind; [apply confined_measure_with, I | intros; apply confined_ret].
Qed.
Lemma confined_meas_step e (d : device V) i m st (rep : report V) :
  (forall c, In c (dkeys (ms_conds m)) -> cond_in G e c) ->
  (forall x, In x (dkeys (ms_counts m)) -> error_in G e x /\
     (forall p, dget d x = Some (PDeg p) -> reading_in G p) /\
     (forall c, dget d x = Some (PCirc c) -> eqn_in G (lm_eqn c))) ->
  confined G (meas_step e d i m st rep).
Proof.
  intros I J. unfold meas_step. apply confined_bind; [apply confined_env, I|intros conds].
  apply confined_bind; [|intros; apply confined_ret].
  apply confined_foldM. intros acc [x k] Hin. cbn [fst snd].
  destruct (J x (in_map fst _ _ Hin)) as (J1 & J2 & J3).
  apply confined_bind; [apply confined_measure_prm; assumption | intros; apply confined_ret].
Qed.

(** birth *)
Lemma confined_gen_prm C L g (kv : string * prm V) : birth_in G (snd kv) -> confined G (gen_prm_state C L g kv).
Proof.
  intros I. unfold gen_prm_state. apply confined_bind; [apply confined_lift|intros n].
  destruct (snd kv) as [p|c]; cbn [birth_in] in I.
  - destruct I as (I1 & I2 & I3 & I4 & I5). apply confined_bind.
    + unfold prm_latents. apply confined_bind; [apply confined_gen_latents, I3|intros c].
      apply confined_bind.
      * apply confined_foldM. intros acc [x m] Hin. cbn [fst snd].
        apply confined_bind; [apply confined_gen_latents, (I4 x), Hin | intros; apply confined_ret].
      * intros l. apply confined_bind; [apply confined_gen_latents, I5 | intros; apply confined_ret].
    + intros lats. apply confined_bind; [apply confined_lift|intros cs]. apply confined_bind; [|intros; apply confined_ret].
      apply confined_bind; [apply confined_lift|intros n']. apply confined_bind; [|intros; apply confined_ret].
      apply confined_bind; [apply confined_gen_latents, I1 | intros; apply confined_call, I2].
  - apply confined_bind; [apply confined_gen_latents, I|intros lats].
    apply confined_bind; [apply confined_lift|intros cs]. apply confined_bind; [apply confined_ret | intros; apply confined_ret].
Qed.
End Foot.
