(** Lemmas about the draws behind a generated state. *)
From Coq Require Import Reals Qreals List Lia Lra Bool String FunctionalExtensionality.
From Verif Require Import M_Base M_Num M_NumR M_Nd M_RandVar M_Latent M_Time M_TestSpec M_Device M_Env S_Latent S_Sim
  L_Base L_Latent L_Device L_Sim L_Sim3 S_Moments L_Moments L_Moments2 S_Moments2.
Import ListNotations.
Open Scope R_scope.

Lemma flat_map_split {A B} (f : A -> list B) l : forall pre x post, flat_map f l = pre ++ x :: post ->
  exists l1 y l2 p1 p2, l = l1 ++ y :: l2 /\ f y = p1 ++ x :: p2 /\ pre = flat_map f l1 ++ p1.
Proof.
  induction l as [|a l IH]; intros pre x post K; cbn [flat_map] in K; [destruct pre; discriminate|].
  apply app_eq_app in K as (m & [[Ka Kb]|[Ka Kb]]).
  - destruct m as [|b m].
    + cbn in Kb. rewrite app_nil_r in Ka. destruct (IH [] x post (eq_sym Kb)) as (l1 & y & l2 & p1 & p2 & E1 & E2 & E3).
      exists (a :: l1), y, l2, p1, p2. split; [now rewrite E1|]. split; [exact E2|]. cbn [flat_map].
      symmetry in E3. apply app_eq_nil in E3 as [E3 E4]. rewrite E3, E4, !app_nil_r. now symmetry.
    + cbn [app] in Kb. injection Kb as <- Kb. exists [], a, l, pre, m. auto.
  - destruct (IH m x post Kb) as (l1 & y & l2 & p1 & p2 & E1 & E2 & E3).
    exists (a :: l1), y, l2, p1, p2. split; [now rewrite E1|]. split; [exact E2|]. cbn [flat_map]. rewrite Ka, E3. now rewrite app_assoc.
Qed.
Lemma map_split {A B} (f : A -> B) l : forall pre x post, map f l = pre ++ x :: post ->
  exists l1 y l2, l = l1 ++ y :: l2 /\ x = f y /\ pre = map f l1.
Proof.
  induction l as [|a l IH]; intros [|b pre] x post K; try discriminate; cbn [map app] in K; injection K as K1 K2.
  - exists [], a, l. auto.
  - destruct (IH _ _ _ K2) as (l1 & y & l2 & -> & -> & ->). exists (a :: l1), y, l2. subst. auto.
Qed.

Section World.
Context {G : Rng R}.

Lemma fold_plan {A B} (g : string * A -> M B) (pl : string * A -> list (nat * npdist R)) l : forall acc w r w',
  (forall x w t w', In x l -> g x w = (Ok t, w') -> w' = after (pl x) w) ->
  foldM (fun acc x => bind (g x) (fun t => ret (dset acc (fst x) t))) l acc w = (Ok r, w') ->
  NoDup (map fst l) ->
  w' = after (flat_map pl l) w /\
  (forall pre x post, l = pre ++ x :: post -> exists t, fst (g x (after (flat_map pl pre) w)) = Ok t /\ dget r (fst x) = Some t) /\
  forall k, ~ In k (map fst l) -> dget r k = dget acc k.
Proof.
  induction l as [|[k a] l IH]; intros acc w r w' P E N.
  - apply ret_ok in E as [-> ->]. split; [reflexivity|]. split; [intros [|? ?] ? ?; discriminate|auto].
  - cbn [foldM] in E. apply bind_ok in E as (acc1 & w1 & E0 & E). apply bind_ok in E0 as (t1 & w2 & E1 & E2).
    apply ret_ok in E2 as [-> ->]. cbn [map fst] in *. inversion N as [|? ? Nk N']; subst.
    pose proof (P _ _ _ _ (or_introl eq_refl) E1) as ->.
    apply IH in E as (K & Q & O); [|intros; eapply P; [right|]; eassumption|exact N'].
    cbn [flat_map]. rewrite after_app. split; [exact K|]. split.
    + intros [|b pre] x post D; cbn [app] in D; injection D as D1 D2; subst.
      * exists t1. cbn [flat_map]. split; [exact (f_equal fst E1)|]. cbn [fst]. rewrite O by exact Nk. apply dget_dset_eq.
      * cbn [flat_map]. rewrite after_app. eapply Q. reflexivity.
    + intros k' Hk. cbn [In] in Hk. rewrite O by tauto. apply dget_dset_neq. tauto.
Qed.

Lemma sample_exact r n w : acceptable (Some r) ->
  sample r n w = (Ok (layer_values Offset (Some r) n w), after (layer_plan Offset (Some r) n) w).
Proof.
  intros K. destruct (layer_sample Offset r true (Some r) n w (conj eq_refl (conj eq_refl eq_refl)) K) as (w' & -> & Kw).
  f_equal. extensionality g. apply Kw.
Qed.
Lemma gen_latent_world o D C L w : samplable o -> snd (gen_latent o D C L w) = after (object_plan o D C L) w.
Proof.
  intros (_ & Kl & Kc & Kd). unfold gen_latent, bind. rewrite sample_exact by exact Kl. rewrite sample_exact by exact Kc.
  rewrite sample_exact by exact Kd. unfold lift. cbn [snd]. unfold object_plan. now rewrite !after_app.
Qed.

Definition vars_plan (vs : dict (lvar R)) (D C L : nat) : list (nat * npdist R) := flat_map (fun kv => object_plan (snd kv) D C L) vs.
Definition parts_plan (ps : list (part * dict (lvar R))) (D C L : nat) : list (nat * npdist R) :=
  flat_map (fun pv => vars_plan (snd pv) D C L) ps.

Lemma gen_latents_all m D C L w l w' : (forall x, In x (lm_vars m) -> samplable (snd x)) -> dwf (lm_vars m) ->
  gen_latents m D C L w = (Ok l, w') ->
  w' = after (vars_plan (lm_vars m) D C L) w /\
  (forall pre x post, lm_vars m = pre ++ x :: post -> exists a,
    fst (gen_latent (snd x) D C L (after (vars_plan pre D C L) w)) = Ok a /\ dget l (fst x) = Some (PArr a)) /\
  dwf l /\ forall k, ~ In k (dkeys (lm_vars m)) -> ~ In k (dkeys l).
Proof.
  intros P W E. unfold gen_latents in E.
  assert (Wl : dwf l).
  { revert E. apply foldM_inv with (P := fun x : dict (pyval R) => dwf x); [|constructor].
    intros s1 x w1 s2 w2 _ Hs Es. apply bind_ok in Es as (a & w3 & _ & Es). apply ret_ok in Es as [-> _]. now apply dwf_dset. }
  rewrite (foldM_ext _ (fun acc x => bind ((fun kv : string * lvar R => (a <- gen_latent (snd kv) D C L ;; ret (PArr a))%m) x)
     (fun t => ret (dset acc (fst x) t)))) in E.
  2:{ intros s x w1 _. unfold bind. destruct (gen_latent (snd x) D C L w1) as [[a|ex] w2]; reflexivity. }
  apply (fold_plan _ (fun kv => object_plan (snd kv) D C L)) in E as (K & Q & O); [|clear E|exact W].
  - split; [exact K|]. split; [|split; [exact Wl|intros k Hk; apply dget_None_keys; exact (O k Hk)]]. intros pre x post Es. destruct (Q _ _ _ Es) as (t & Et & Ed).
    unfold vars_plan. unfold bind in Et.
    destruct (gen_latent (snd x) D C L (after (flat_map (fun kv => object_plan (snd kv) D C L) pre) w)) as [[a|ex] w2]; [|discriminate].
    cbn [fst ret] in Et. injection Et as <-. exists a. auto.
  - intros x w1 t w2 Hx E. apply bind_ok in E as (a & w3 & E & E2). apply ret_ok in E2 as [_ ->].
    rewrite <- gen_latent_world by (now apply P). now rewrite E.
Qed.

Lemma gen_latents_plan m D C L w l w' : (forall x, In x (lm_vars m) -> samplable (snd x)) -> dwf (lm_vars m) ->
  gen_latents m D C L w = (Ok l, w') ->
  w' = after (vars_plan (lm_vars m) D C L) w /\
  forall pre x post, lm_vars m = pre ++ x :: post -> exists a,
    fst (gen_latent (snd x) D C L (after (vars_plan pre D C L) w)) = Ok a /\ dget l (fst x) = Some (PArr a).
Proof.
  intros P W E. apply gen_latents_all in E as (A & B & _); auto.
Qed.

Lemma prm_latents_plan p D C L w lats w' : distinct_names (PDeg p) ->
  (forall pv x, In pv (parts (PDeg p)) -> In x (snd pv) -> samplable (snd x)) ->
  prm_latents p D C L w = (Ok lats, w') ->
  let gs := (Cond, lm_vars (dp_cond p)) :: map (fun nm => (Mech (fst nm), lm_vars (mc_mdl (snd nm)))) (dp_mechs p) ++ [(Own, lm_vars (dp_own p))] in
  w' = after (parts_plan gs D C L) w /\
  forall gpre pt vs gpost pre x post, gs = gpre ++ (pt, vs) :: gpost -> vs = pre ++ x :: post -> exists a,
    fst (gen_latent (snd x) D C L (after (parts_plan gpre D C L ++ vars_plan pre D C L) w)) = Ok a /\
    match pt with
    | Own => dget lats (fst x) = Some (PArr a)
    | Cond => sub (dget lats "cond"%string) (fst x) = Some (PArr a)
    | Mech m => sub (dget lats m) (fst x) = Some (PArr a)
    | Init => False
    end.
Proof.
  intros (Wm & Nc & Wc & Wo & _ & Wv & Nm) P E gs. unfold prm_latents in E.
  apply bind_ok in E as (c & w1 & E1 & E). apply bind_ok in E as (l & w2 & E2 & E). apply bind_ok in E as (own & w3 & E3 & E).
  apply ret_ok in E as [-> ->].
  apply gen_latents_plan in E1 as (-> & Q1); [|intros x Hx; exact (P _ x (or_introl eq_refl) Hx)|exact Wc].
  rewrite (foldM_ext _ (fun acc x => bind ((fun nm : string * mech R => (x <- gen_latents (mc_mdl (snd nm)) D C L ;; ret (PDict x))%m) x)
     (fun t => ret (dset acc (fst x) t)))) in E2.
  2:{ intros s x wx _. unfold bind. destruct (gen_latents (mc_mdl (snd x)) D C L wx) as [[a|ex] wy]; reflexivity. }
  assert (Pm : forall nm x, In nm (dp_mechs p) -> In x (lm_vars (mc_mdl (snd nm))) -> samplable (snd x)).
  { intros nm x Hn Hx. apply (P (Mech (fst nm), lm_vars (mc_mdl (snd nm))) x); [|exact Hx].
    right. apply in_or_app. left. apply in_map_iff. exists nm. auto. }
  apply (fold_plan _ (fun nm => vars_plan (lm_vars (mc_mdl (snd nm))) D C L)) in E2 as (-> & Q2 & O2); [| |exact Wm].
  2:{ intros [nm m] wx t wy Hx Ex. apply bind_ok in Ex as (a & wz & Ex & Ey). apply ret_ok in Ey as [_ ->].
      apply gen_latents_plan in Ex as (-> & _); [reflexivity|intros; eapply Pm; eassumption|exact (Wv _ _ Hx)]. }
  apply gen_latents_all in E3 as (-> & Q3 & Wown & Oown); [| |exact Wo].
  2:{ intros x Hx. apply (P (Own, lm_vars (dp_own p)) x); [|exact Hx]. right. apply in_or_app. right. left. reflexivity. }
  assert (Mp : forall ms : dict (mech R), flat_map (fun pv => vars_plan (snd pv) D C L) (map (fun nm => (Mech (fst nm), lm_vars (mc_mdl (snd nm)))) ms) =
    flat_map (fun nm => vars_plan (lm_vars (mc_mdl (snd nm))) D C L) ms).
  { induction ms as [|a ms IH]; cbn [flat_map map snd]; [reflexivity|now rewrite IH]. }
  assert (Uo : forall k, ~ In k (dkeys (lm_vars (dp_own p))) -> dget (dupdate l own) k = dget l k).
  { intros k Hk. apply dget_dupdate_other. now apply Oown. }
  split.
  - unfold parts_plan, gs. cbn [flat_map snd]. rewrite flat_map_app, Mp. cbn [flat_map snd]. rewrite app_nil_r. now rewrite !after_app.
  - intros gpre pt vs gpost pre x post Eg Ev. unfold gs in Eg. destruct gpre as [|g0 gpre]; cbn [app] in Eg.
    + injection Eg as <- <- <-. destruct (Q1 _ _ _ Ev) as (a & Ea & Ed). exists a. cbn [parts_plan flat_map app]. split; [exact Ea|].
      rewrite Uo, O2; [cbn; exact Ed|exact Nc|]. intros K. now apply Nm in K.
    + injection Eg as <- Eg. apply app_eq_app in Eg as (m & [[Ea Eb]|[Ea Eb]]).
      * destruct m as [|b m].
        -- cbn in Eb. injection Eb as Eb1 Eb2 Eb3. subst pt vs gpost. rewrite app_nil_r in Ea. destruct (Q3 _ _ _ Ev) as (a & Eg & Ed). exists a. split.
           ++ rewrite <- Ea. unfold parts_plan. cbn [flat_map snd]. rewrite Mp, !after_app. exact Eg.
           ++ rewrite dget_dupdate by exact Wown. now rewrite Ed.
        -- cbn [app] in Eb. injection Eb as <- Eb. apply map_split in Ea as (l1 & [nm mm] & l2 & El & Ep & ->).
           cbn [fst snd] in Ep. injection Ep as -> ->. destruct (Q2 _ _ _ El) as (t & Et & Ed). cbn [fst snd] in *.
           unfold bind in Et. match type of Et with context [gen_latents ?mm D C L ?ww] => destruct (gen_latents mm D C L ww) as [[lt|ex] wz] eqn:El2 end; [|discriminate].
           cbn [fst ret] in Et. injection Et as <-.
           assert (Hin : In (nm, mm) (dp_mechs p)) by (rewrite El; apply in_or_app; right; left; reflexivity).
           apply gen_latents_plan in El2 as (_ & Q4); [|intros; eapply (Pm (nm, mm)); eassumption|exact (Wv _ _ Hin)].
           destruct (Q4 _ _ _ Ev) as (a & Ea & Ex). exists a. split.
           ++ unfold parts_plan. cbn [flat_map snd]. rewrite Mp, !after_app. exact Ea.
           ++ rewrite Uo, Ed; [exact Ex|]. intros K. apply Nm in K as [_ K]. apply K. unfold dkeys. apply in_map_iff. exists (nm, mm). auto.
      * destruct m as [|b m]; cbn [app] in Eb.
        -- injection Eb as Eb1 Eb2 Eb3. subst pt vs gpost. rewrite app_nil_r in Ea. destruct (Q3 _ _ _ Ev) as (a & Eg & Ed). exists a. split.
           ++ rewrite Ea. unfold parts_plan. cbn [flat_map snd]. rewrite Mp, !after_app. exact Eg.
           ++ rewrite dget_dupdate by exact Wown. now rewrite Ed.
        -- injection Eb as _ Eb. destruct m; discriminate.
Qed.

Definition found_in (lats : dict (pyval R)) (v : option (pyval R)) (pt : part) (var : string) : option (nd R) :=
  match pt with
  | Own => arr (dget lats var)
  | Cond => arr (sub (dget lats "cond"%string) var)
  | Mech m => arr (sub (dget lats m) var)
  | Init => arr v
  end.

Lemma init_plan m D C L w v w' : (forall x, In x (lm_vars m) -> samplable (snd x)) -> dwf (lm_vars m) -> quiet (lm_eqn m) ->
  gen_init_vals m D C L w = (Ok v, w') ->
  w' = after (vars_plan (lm_vars m) D C L) w /\
  forall pre x post, lm_vars m = pre ++ x :: post -> exists a,
    fst (gen_latent (snd x) D C L (after (vars_plan pre D C L) w)) = Ok a /\ (lm_eqn m = eqn_basic -> v = PArr a).
Proof.
  intros P W Q E. unfold gen_init_vals in E. apply bind_ok in E as (l & w1 & E1 & E2).
  apply gen_latents_plan in E1 as (-> & K); [|exact P|exact W]. unfold call in E2.
  destruct (forallb (dmem l) (e_req (lm_eqn m)) && _) eqn:Eb; [|discriminate]. split.
  - rewrite <- (Q l (after (vars_plan (lm_vars m) D C L) w)). now rewrite E2.
  - intros pre x post Ex. destruct (K _ _ _ Ex) as (a & Ea & Ed). exists a. split; [exact Ea|]. intros Em. rewrite Em in E2, Eb.
    cbn [e_req e_opt e_kw eqn_basic forallb] in Eb. apply andb_true_iff in Eb as [_ Eb]. rewrite forallb_forall in Eb.
    assert (Kx : In (fst x) (dkeys l)) by (apply dget_In in Ed; unfold dkeys; apply in_map_iff; exists (fst x, PArr a); auto).
    apply Eb in Kx. unfold smem in Kx. cbn [app existsb] in Kx. rewrite orb_false_r in Kx. apply String.eqb_eq in Kx.
    cbn [e_body eqn_basic] in E2. rewrite Kx in Ed. unfold dgetE in E2. rewrite Ed in E2. cbn in E2. now injection E2 as <- _.
Qed.

Lemma gen_prm_plan C L (g g' : gstate R) name q w w' n : distinct_names q ->
  (forall p, q = PDeg p -> quiet (lm_eqn (dp_init p))) -> (forall pv x, In pv (parts q) -> In x (snd pv) -> samplable (snd x)) ->
  dget (g_counts g) name = Some n ->
  gen_prm_state C L g (name, q) w = (Ok g', w') ->
  w' = after (parts_plan (parts q) n C L) w /\
  (forall k, k <> name -> dget (g_lat g') k = dget (g_lat g) k /\ dget (g_prm g') k = dget (g_prm g) k) /\
  exists lats, dget (g_lat g') name = Some lats /\
  forall gpre pt vs gpost pre x post, parts q = gpre ++ (pt, vs) :: gpost -> vs = pre ++ x :: post -> exists a,
    fst (gen_latent (snd x) n C L (after (parts_plan gpre n C L ++ vars_plan pre n C L) w)) = Ok a /\
    ((pt = Init -> exists p, q = PDeg p /\ lm_eqn (dp_init p) = eqn_basic) -> found_in lats (dget (g_prm g') name) pt (fst x) = Some a).
Proof.
  intros Dn Qe P Hn E. apply gen_prm_ok in E as (n' & lats & wa & Hn' & _ & El & E). cbn [fst snd] in *.
  rewrite Hn in Hn'. injection Hn' as <-. destruct q as [p|c].
  - destruct E as (E1 & _ & v & E2 & Ev). pose proof Dn as (_ & _ & _ & _ & Wi & _ & _).
    apply prm_latents_plan in E1 as (-> & Q1); [|exact Dn|exact P].
    apply init_plan in E2 as (-> & Q2); [|intros x Hx; apply (P (Init, lm_vars (dp_init p)) x)|exact Wi|now apply Qe].
    2:{ right. apply in_or_app. right. right. left. reflexivity. }
    2:{ exact Hx. }
    set (gs := (Cond, lm_vars (dp_cond p)) :: map (fun nm => (Mech (fst nm), lm_vars (mc_mdl (snd nm)))) (dp_mechs p) ++ [(Own, lm_vars (dp_own p))]) in *.
    assert (Eg : parts (PDeg p) = gs ++ [(Init, lm_vars (dp_init p))]) by (unfold gs; cbn [parts app]; now rewrite <- app_assoc).
    rewrite Eg. split; [|split].
    + unfold parts_plan. rewrite flat_map_app, after_app. cbn [flat_map snd]. now rewrite app_nil_r.
    + intros k Hk. rewrite El, Ev, !dget_dset_neq by auto. auto.
    + exists lats. rewrite El, Ev, !dget_dset_eq. split; [reflexivity|]. intros gpre pt vs gpost pre x post Es Ex.
      assert (Sp : (gs = gpre ++ (pt, vs) :: removelast gpost) \/ (gs = gpre /\ pt = Init /\ vs = lm_vars (dp_init p))).
      { apply app_eq_app in Es as (m & [[Ea Eb]|[Ea Eb]]).
        - destruct m as [|b m]; cbn [app] in Eb.
          + right. rewrite app_nil_r in Ea. injection Eb as Eb1 Eb2 Eb3. subst. auto.
          + left. injection Eb as <- Eb. rewrite Ea. f_equal. f_equal. rewrite Eb. rewrite removelast_app by discriminate.
            cbn [removelast]. now rewrite app_nil_r.
        - destruct m as [|b m]; cbn [app] in Eb.
          + right. rewrite app_nil_r in Ea. injection Eb as Eb1 Eb2 Eb3. subst. auto.
          + injection Eb as _ Eb. destruct m; discriminate. }
      destruct Sp as [Sp|(Sp & -> & ->)].
      * destruct (Q1 _ _ _ _ _ _ _ Sp Ex) as (a & Ea & Ef). exists a. split; [exact Ea|]. intros _.
        destruct pt; cbn [found_in]; try contradiction; now rewrite Ef.
      * destruct (Q2 _ _ _ Ex) as (a & Ea & Ef). exists a. split; [now rewrite after_app, <- Sp|].
        intros K. destruct (K eq_refl) as (p' & Ep & Eb). injection Ep as <-. cbn [found_in]. now rewrite (Ef Eb).
  - destruct E as (E1 & _ & Ep). apply gen_latents_plan in E1 as (-> & Q1); [|intros x Hx; apply (P _ x (or_introl eq_refl) Hx)|exact Dn].
    split; [|split].
    + unfold parts_plan. cbn [parts flat_map snd]. now rewrite app_nil_r.
    + intros k Hk. rewrite El, Ep, dget_dset_neq by auto. auto.
    + exists lats. rewrite El, dget_dset_eq. split; [reflexivity|]. intros gpre pt vs gpost pre x post Es Ex.
      cbn [parts] in Es. destruct gpre as [|? [|? ?]]; cbn [app] in Es; try discriminate.
      injection Es as <- <- <-. destruct (Q1 _ _ _ Ex) as (a & Ea & Ef). exists a. split; [exact Ea|]. intros _. cbn [found_in]. now rewrite Ef.
Qed.

Lemma gen_fold_plan C L counts : forall l (g g' : gstate R) w w', NoDup (map fst l) -> g_counts g = counts ->
  (forall name q, In (name, q) l -> distinct_names q) -> (forall name p, In (name, PDeg p) l -> quiet (lm_eqn (dp_init p))) ->
  (forall x, In x (drawings l counts) -> samplable (dr_var x)) ->
  foldM (gen_prm_state C L) l g w = (Ok g', w') ->
  w' = after (drawings_plan (drawings l counts) C L) w /\
  (forall k, ~ In k (map fst l) -> dget (g_lat g') k = dget (g_lat g) k /\ dget (g_prm g') k = dget (g_prm g) k) /\
  forall pre x post, drawings l counts = pre ++ x :: post -> exists a lats,
    fst (gen_latent (dr_var x) (dr_count x) C L (after (drawings_plan pre C L) w)) = Ok a /\
    dget (g_lat g') (pl_prm (dr_place x)) = Some lats /\
    ((pl_part (dr_place x) = Init -> exists p, In (pl_prm (dr_place x), PDeg p) l /\ lm_eqn (dp_init p) = eqn_basic) ->
     found_in lats (dget (g_prm g') (pl_prm (dr_place x))) (pl_part (dr_place x)) (pl_var (dr_place x)) = Some a).
Proof.
  assert (Pl : forall name n ps, drawings_plan (flat_map (fun pv : part * dict (lvar R) => map (fun v => Drawing (Place name (fst pv) (fst v)) n (snd v)) (snd pv)) ps) C L =
    parts_plan ps n C L).
  { intros name n ps. unfold drawings_plan, parts_plan. induction ps as [|[pt vs] ps IH]; cbn [flat_map fst snd]; [reflexivity|].
    rewrite flat_map_app, IH. f_equal. unfold vars_plan. clear. induction vs as [|v vs IH]; cbn [map flat_map]; [reflexivity|]. now rewrite IH. }
  assert (Pv : forall name pt n (vs : dict (lvar R)), drawings_plan (map (fun v => Drawing (Place name pt (fst v)) n (snd v)) vs) C L = vars_plan vs n C L).
  { intros name pt n vs. unfold drawings_plan, vars_plan. induction vs as [|v vs IH]; cbn [map flat_map]; [reflexivity|]. now rewrite IH. }
  assert (Pa : forall a b, drawings_plan (a ++ b) C L = drawings_plan a C L ++ drawings_plan b C L) by (intros; apply flat_map_app).
  induction l as [|[k q] l IH]; intros g g' w w' N Hc Dn Qe P E; cbn [foldM] in E.
  - apply ret_ok in E as [-> ->]. split; [reflexivity|]. split; [auto|]. intros [|? ?] ? ? Ks; discriminate.
  - apply bind_ok in E as (g1 & w1 & E1 & E). cbn [map fst] in N. inversion N as [|? ? Nk N']; subst.
    pose proof (gen_prm_ok _ _ _ _ _ _ _ E1) as (n & _ & _ & Hn & Hc' & _). cbn [fst] in Hn.
    assert (Ec : (match dget (g_counts g) k with Some n => n | None => 0%nat end) = n) by now rewrite Hn.
    apply (gen_prm_plan C L g g1 k q w w1 n) in E1 as (-> & O1 & lats & El & Q1); [|eapply Dn; left; reflexivity|intros p ->; eapply Qe; left; reflexivity| |exact Hn].
    2:{ intros pv x Hp Hx. specialize (P (Drawing (Place k (fst pv) (fst x)) n (snd x))). apply P. cbn [drawings flat_map fst snd]. apply in_or_app. left.
        apply in_flat_map. exists pv. split; [exact Hp|]. apply in_map_iff. exists x. rewrite Ec. auto. }
    apply (IH g1 g') in E as (-> & O2 & Q2); [|exact N'|exact Hc'|intros; eapply Dn; right; eassumption|intros; eapply Qe; right; eassumption|].
    2:{ intros x Hx. apply P. cbn [drawings flat_map]. apply in_or_app. right. exact Hx. }
    cbn [drawings flat_map fst snd]. rewrite Ec. fold (drawings l (g_counts g)). split; [|split].
    + rewrite Pa, Pl. now rewrite after_app.
    + intros k' Hk. cbn [map fst In] in Hk. destruct (O2 k') as [A B]; [tauto|]. destruct (O1 k') as [A' B']; [intros ->; tauto|]. now rewrite A, B, A', B'.
    + intros pre x post Es. apply app_eq_app in Es as (m & [[Ea Eb]|[Ea Eb]]).
      * destruct m as [|b m]; cbn [app] in Eb.
        -- rewrite app_nil_r in Ea. subst pre. destruct (Q2 [] x post (eq_sym Eb)) as (a & lats' & A1 & A2 & A3). exists a, lats'.
           rewrite Pl. split; [exact A1|]. split; [exact A2|]. intros K. apply A3. intros Ki. destruct (K Ki) as (p & [Kp|Kp] & Kb); [|eauto].
           injection Kp as Kp1 Kp2. exfalso. apply Nk. rewrite Kp1.
           assert (Hx : In x (drawings l (g_counts g))) by (rewrite <- Eb; left; reflexivity).
           unfold drawings in Hx. apply in_flat_map in Hx as ([k2 q2] & H1 & H2). apply in_flat_map in H2 as (pv & H2 & H3).
           apply in_map_iff in H3 as (v & <- & _). cbn [dr_place pl_prm fst]. apply in_map_iff. exists (k2, q2). auto.
        -- injection Eb as <- Eb. apply flat_map_split in Ea as (l1 & [pt vs] & l2 & p1 & p2 & Ep & Ey & ->).
           cbn [fst snd] in Ey. apply map_split in Ey as (v1 & v & v2 & Ev & -> & ->).
           destruct (Q1 _ _ _ _ _ _ _ Ep Ev) as (a & A1 & A2). exists a, lats. cbn [dr_var dr_count dr_place pl_prm pl_part pl_var].
           destruct (O2 k Nk) as [B1 B2]. rewrite Pa, Pl, Pv. split; [exact A1|]. split; [now rewrite B1|].
           rewrite B2. intros K. apply A2. intros Kt. destruct (K Kt) as (p & [Kp|Kp] & Kb).
           ++ injection Kp as ->. eauto.
           ++ exfalso. apply Nk. apply in_map_iff. exists (k, PDeg p). auto.
      * destruct (Q2 m x post Eb) as (a & lats' & A1 & A2 & A3). exists a, lats'. subst pre. rewrite Pa, Pl, after_app.
        split; [exact A1|]. split; [exact A2|]. intros K. apply A3. intros Ki. destruct (K Ki) as (p & [Kp|Kp] & Kb); [|eauto].
        injection Kp as Kp1 Kp2. exfalso. apply Nk. rewrite Kp1.
        assert (Hx : In x (drawings l (g_counts g))) by (rewrite Eb; apply in_or_app; right; left; reflexivity).
        unfold drawings in Hx. apply in_flat_map in Hx as ([k2 q2] & H1 & H2). apply in_flat_map in H2 as (pv & H2 & H3).
        apply in_map_iff in H3 as (v & <- & _). cbn [dr_place pl_prm fst]. apply in_map_iff. exists (k2, q2). auto.
Qed.

Lemma dev_init_plan d counts C L w st cnt w' : sampled_device d counts -> dev_init_state d counts C L w = (Ok (st, cnt), w') ->
  w' = after (drawings_plan (drawings d counts) C L) w /\
  forall pre x post, drawings d counts = pre ++ x :: post -> exists a,
    fst (gen_latent (dr_var x) (dr_count x) C L (after (drawings_plan pre C L) w)) = Ok a /\
    (in_state d (dr_place x) -> found st (dr_place x) = Some a).
Proof.
  intros [W Dn Qe P] E. unfold dev_init_state in E. apply bind_ok in E as (g & w1 & E & E2). apply ret_ok in E2 as [E2 ->]. injection E2 as -> ->.
  apply (gen_fold_plan C L counts) in E as (-> & _ & Q); auto. split; [reflexivity|]. intros pre x post Es.
  destruct (Q pre x post Es) as (a & lats & A1 & A2 & A3). exists a. split; [exact A1|]. intros K.
  unfold found. cbn [st_lat st_prm]. rewrite A2. unfold found_in in A3. apply A3. intros Ki. destruct (K Ki) as (p & Kp & Kb).
  exists p. split; [now apply dget_In|exact Kb].
Qed.
End World.
