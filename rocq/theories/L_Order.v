(** The iteration order of sets does not matter when conditions have generators of
    their own. *)
From Coq Require Import FunctionalExtensionality Permutation Arith.
From Verif Require Import M_Base M_Num M_Nd M_RandVar M_Latent M_Time M_TestSpec M_Minimize M_Device M_Report M_Env M_Sim
  S_TestSpec S_Device S_Env S_Sim S_Order L_Base L_Nd L_Latent L_Device L_Env2 L_Sim.
Open Scope nat_scope.

(** Dictionaries with the same entries. *)
Definition eqd {A} (a b : dict A) : Prop := forall x, dget a x = dget b x.
Definition eqd2 {A} (a b : dict (dict A)) : Prop :=
  forall x, match dget a x, dget b x with Some u, Some v => eqd u v | None, None => True | _, _ => False end.

Lemma eqd_refl {A} (a : dict A) : eqd a a.
Proof. intros x. reflexivity. Qed.
Lemma eqd_dset {A} (a b : dict A) k v : eqd a b -> eqd (dset a k v) (dset b k v).
Proof. intros E x. rewrite !dget_dset. now destruct (String.eqb k x). Qed.
Lemma eqd_swap {A} (a b : dict A) k1 k2 v1 v2 : k1 <> k2 -> eqd a b -> eqd (dset (dset a k1 v1) k2 v2) (dset (dset b k2 v2) k1 v1).
Proof.
  intros N E x. rewrite !dget_dset. destruct (String.eqb_spec k1 x), (String.eqb_spec k2 x); subst; auto; try congruence.
Qed.
Lemma eqd2_dset {A} (a b : dict (dict A)) k u v : eqd2 a b -> eqd u v -> eqd2 (dset a k u) (dset b k v).
Proof. intros E F x. rewrite !dget_dset. destruct (String.eqb k x); auto. apply E. Qed.

Section L.
Context {V : Type} `{NumOps V} `{Rng V}.

(** ** Two draws from different generators commute *)
Lemma wset_comm w g1 g2 a b : g1 <> g2 -> wset (wset w g1 a) g2 b = wset (wset w g2 b) g1 a.
Proof.
  intros N. apply functional_extensionality. intros g. unfold wset.
  destruct (Nat.eqb_spec g g1), (Nat.eqb_spec g g2); subst; auto; congruence.
Qed.
Lemma wset_other w g a g' : g' <> g -> wset w g a g' = w g'.
Proof. intros N. unfold wset. destruct (Nat.eqb_spec g' g); congruence. Qed.

Definition touches (r : rv V) (f : M (list V)) : Prop :=
  (exists o, forall w, f w = (o, w)) \/
  (exists o : nat -> list V * nat, forall w, f w = (Ok (fst (o (w (rv_gen r)))), wset w (rv_gen r) (snd (o (w (rv_gen r)))))).

Lemma sample_touches (r : rv V) n : touches r (sample r n) /\
  ((exists v, rv_dist r = DDeter v) -> exists o, forall w, sample r n w = (o, w)).
Proof.
  split.
  - unfold sample. destruct (rv_dist r) eqn:Ed; try (left; eexists; intros w; reflexivity);
    (match goal with |- context [params_numpy ?d] => destruct (params_numpy d) as [p|ex] end; [|left; eexists; intros w; reflexivity];
     destruct (rvalid p); [|left; eexists; intros w; reflexivity]; right; exists (draws p n); intros w; destruct (draws p n (w (rv_gen r))); reflexivity).
  - intros [v Q]. unfold sample. rewrite Q. eexists. intros w. reflexivity.
Qed.

Lemma sample_swap (r1 r2 : rv V) n1 n2 w x1 w1 x2 w2 : apart r1 r2 ->
  sample r1 n1 w = (Ok x1, w1) -> sample r2 n2 w1 = (Ok x2, w2) ->
  exists w3, sample r2 n2 w = (Ok x2, w3) /\ sample r1 n1 w3 = (Ok x1, w2).
Proof.
  intros A E1 E2. destruct (sample_touches r1 n1) as [T1 D1], (sample_touches r2 n2) as [T2 D2].
  assert (X : (exists o, forall w, sample r1 n1 w = (o, w)) \/ (exists o, forall w, sample r2 n2 w = (o, w)) \/ rv_gen r1 <> rv_gen r2) by
    (destruct A as [A|[A|A]]; auto).
  clear A D1 D2. destruct X as [[o X]|[[o X]|X]].
  - rewrite X in E1. injection E1 as -> <-. exists w2. split; [exact E2|apply X].
  - rewrite X in E2. injection E2 as -> <-. exists w. split; [apply X|exact E1].
  - destruct T1 as [[o T1]|[o1 T1]].
    + rewrite T1 in E1. injection E1 as -> <-. exists w2. split; [exact E2|apply T1].
    + destruct T2 as [[o T2]|[o2 T2]].
      * rewrite T2 in E2. injection E2 as -> <-. exists w. split; [apply T2|exact E1].
      * rewrite T1 in E1. injection E1 as <- <-. rewrite T2 in E2. injection E2 as <- <-. rewrite wset_other by congruence.
        exists (wset w (rv_gen r2) (snd (o2 (w (rv_gen r2))))). split; auto. rewrite T1, wset_other by congruence. f_equal. apply wset_comm. congruence.
Qed.

Lemma gen_dev_sample (m : emdl V) c n : exists k (f : list V -> res (nd V)), forall w a w',
  gen_dev m c n w = (Ok a, w') <-> exists xs, sample (em_dev m) k w = (Ok xs, w') /\ f xs = Ok a.
Proof.
  unfold gen_dev. exists (n * length (ndata c)), (fun xs => rbind (em_opE m) (fun op =>
    match nshape c with a :: b :: _ => rbind (nreshape [a; b; n] (Nd [length xs] xs)) (fun d => bmap2 op (nexpand c) d) | _ => Err IndexError end)).
  intros w a w'. split.
  - intros E. apply bind_lift_ok in E as (op & E1 & E). apply bind_ok in E as (xs & w1 & E2 & E). exists xs. rewrite E1. cbn [rbind].
    destruct (nshape c) as [|x [|y s]]; try discriminate. apply lift_ok in E as [E ->]. auto.
  - intros (xs & E1 & E2). apply rbind_ok in E2 as (op & Eo & E2). unfold bind, lift. rewrite Eo, E1.
    destruct (nshape c) as [|x [|y s]]; try discriminate. now rewrite E2.
Qed.

Lemma gen_dev_swap (m1 m2 : emdl V) c1 c2 n1 n2 w a1 w1 a2 w2 : apart (em_dev m1) (em_dev m2) ->
  gen_dev m1 c1 n1 w = (Ok a1, w1) -> gen_dev m2 c2 n2 w1 = (Ok a2, w2) ->
  exists w3, gen_dev m2 c2 n2 w = (Ok a2, w3) /\ gen_dev m1 c1 n1 w3 = (Ok a1, w2).
Proof.
  intros A E1 E2. destruct (gen_dev_sample m1 c1 n1) as (k1 & f1 & S1), (gen_dev_sample m2 c2 n2) as (k2 & f2 & S2).
  apply S1 in E1 as (x1 & E1 & F1). apply S2 in E2 as (x2 & E2 & F2).
  destruct (sample_swap _ _ _ _ _ _ _ _ _ A E1 E2) as (w3 & G1 & G2). exists w3. split; [apply S2|apply S1]; eauto.
Qed.

(** ** Conditions of one parameter in another order *)
Section Fold.
Variable act : string -> M (pyval V).
Variable l0 : list string.
Hypothesis swap : forall c1 c2 w a1 w1 a2 w2, In c1 l0 -> In c2 l0 -> c1 <> c2 -> act c1 w = (Ok a1, w1) -> act c2 w1 = (Ok a2, w2) ->
  exists w3, act c2 w = (Ok a2, w3) /\ act c1 w3 = (Ok a1, w2).
Let f (acc : dict (pyval V)) (c : string) : M (dict (pyval V)) := bind (act c) (fun a => ret (dset acc c a)).

Lemma fold_perm l l' : Permutation l l' -> NoDup l -> incl l l0 -> forall acc acc' w r w', eqd acc acc' ->
  foldM f l acc w = (Ok r, w') -> exists r', foldM f l' acc' w = (Ok r', w') /\ eqd r r'.
Proof.
  induction 1 as [|x l l' P IH|x y l|l1 l2 l3 P1 IH1 P2 IH2]; intros N I acc acc' w r w' Q E.
  - apply ret_ok in E as [-> ->]. exists acc'. split; auto.
  - cbn [foldM] in *. apply bind_ok in E as (a1 & w1 & E1 & E). apply bind_ok in E1 as (a & w2 & E1 & E2). apply ret_ok in E2 as [-> ->].
    inversion N; subst. destruct (IH ltac:(assumption) (fun z Hz => I z (or_intror Hz)) _ (dset acc' x a) _ _ _ (eqd_dset _ _ _ _ Q) E) as (r' & E' & Q').
    exists r'. split; auto. erewrite bind_eval; [exact E'|]. unfold f. erewrite bind_eval; [reflexivity|exact E1].
  - cbn [foldM] in *. apply bind_ok in E as (a1 & w1 & E1 & E). apply bind_ok in E1 as (a & w2 & E1 & E2). apply ret_ok in E2 as [-> ->].
    apply bind_ok in E as (b1 & w3 & E3 & E). apply bind_ok in E3 as (b & w4 & E3 & E4). apply ret_ok in E4 as [-> ->].
    assert (Nxy : y <> x) by (inversion N; subst; cbn in *; intuition congruence).
    destruct (swap y x _ _ _ _ _ (I y (or_introl eq_refl)) (I x (or_intror (or_introl eq_refl))) Nxy E1 E3) as (w5 & G1 & G2).
    assert (K : forall l acc acc' w r w', eqd acc acc' -> foldM f l acc w = (Ok r, w') -> exists r', foldM f l acc' w = (Ok r', w') /\ eqd r r').
    { clear. induction l as [|z l IH]; intros acc acc' w r w' Q E; cbn [foldM] in *.
      - apply ret_ok in E as [-> ->]. exists acc'. auto.
      - apply bind_ok in E as (a1 & w1 & E1 & E). apply bind_ok in E1 as (a & w2 & E1 & E2). apply ret_ok in E2 as [-> ->].
        destruct (IH _ (dset acc' z a) _ _ _ (eqd_dset _ _ _ _ Q) E) as (r' & E' & Q'). exists r'. split; auto.
        erewrite bind_eval; [exact E'|]. unfold f. erewrite bind_eval; [reflexivity|exact E1]. }
    destruct (K l _ (dset (dset acc' x b) y a) _ _ _ (eqd_swap _ _ _ _ a b Nxy Q) E) as (r' & E' & Q'). exists r'. split; auto.
    unfold f at 1. erewrite bind_eval; [|erewrite bind_eval; [reflexivity|exact G1]].
    unfold f at 1. erewrite bind_eval; [|erewrite bind_eval; [reflexivity|exact G2]]. exact E'.
  - destruct (IH1 N I _ _ _ _ _ Q E) as (r1 & E1 & Q1).
    destruct (IH2 (Permutation_NoDup P1 N) (fun z Hz => I z (Permutation_in z (Permutation_sym P1) Hz)) acc' acc' _ _ _ (eqd_refl _) E1) as (r2 & E2 & Q2).
    exists r2. split; auto. intros z. now rewrite Q1.
Qed.
End Fold.

Lemma prm_conds_perm (e : env V) chip counts prm l l' w r w' : Permutation l l' -> NoDup l -> separate e l ->
  gen_prm_conds e chip counts prm l w = (Ok r, w') -> exists r', gen_prm_conds e chip counts prm l' w = (Ok r', w') /\ eqd r r'.
Proof.
  intros P N S E. unfold gen_prm_conds in *.
  set (act := fun cond => (m <- lift (vrtn_mdl e cond) ;; c <- lift (dgetE chip cond) ;; n <- lift (dgetE counts prm) ;;
     a <- gen_dev m c n ;; ret (PArr a))%m : M (pyval V)).
  assert (Q : forall l acc w, foldM (fun acc cond =>
           (m <- lift (vrtn_mdl e cond) ;; c <- lift (dgetE chip cond) ;; n <- lift (dgetE counts prm) ;;
            a <- gen_dev m c n ;; ret (dset acc cond (PArr a)))%m) l acc w =
     foldM (fun acc cond => bind (act cond) (fun a => ret (dset acc cond a))) l acc w).
  { intros k acc v. apply foldM_ext. intros s x v' _. unfold act, bind, lift, ret. destruct (vrtn_mdl e x); auto. destruct (dgetE chip x); auto.
    destruct (dgetE counts prm); auto. destruct (gen_dev _ _ _ _) as [[?|?] ?]; auto. }
  rewrite Q in E. eapply (fold_perm act l) in E as (r' & E' & Q'); [| |exact P|exact N|apply incl_refl|apply eqd_refl].
  - exists r'. rewrite Q. auto.
  - intros c1 c2 v a1 w1 a2 w2 I1 I2 Nc E1 E2. unfold act in *.
    apply bind_lift_ok in E1 as (m1 & A1 & E1). apply bind_lift_ok in E1 as (x1 & B1 & E1). apply bind_lift_ok in E1 as (n1 & C1 & E1).
    apply bind_ok in E1 as (y1 & u1 & D1 & E1). apply ret_ok in E1 as [-> ->].
    apply bind_lift_ok in E2 as (m2 & A2 & E2). apply bind_lift_ok in E2 as (x2 & B2 & E2). apply bind_lift_ok in E2 as (n2 & C2 & E2).
    apply bind_ok in E2 as (y2 & u2 & D2 & E2). apply ret_ok in E2 as [-> ->].
    destruct (gen_dev_swap _ _ _ _ _ _ _ _ _ _ _ (S _ _ _ _ I1 I2 Nc A1 A2) D1 D2) as (w3 & F1 & F2). exists w3.
    assert (n1 = n2) by congruence. subst n2. unfold bind, lift. rewrite A1, A2, B1, B2, C1, F1, F2. split; reflexivity.
Qed.

(** ** Conditions are only looked up by name *)
Lemma gather_ext names (l c c' : dict (pyval V)) rest : eqd c c' -> forall acc, gather names (l :: c :: rest) acc = gather names (l :: c' :: rest) acc.
Proof. intros Q. induction names as [|x names IH]; intros acc; cbn [gather]; auto. rewrite (Q x). apply IH. Qed.

Lemma mech_args_ext m t (c c' : dict (pyval V)) l : eqd c c' -> mech_args m t c l = mech_args m t c' l.
Proof. intros Q. apply gather_ext, Q. Qed.

Lemma equiv_ext m v (c c' : dict (pyval V)) l L C n : eqd c c' -> mech_equiv_time m v c l L C n = mech_equiv_time m v c' l L C n.
Proof.
  intros Q. assert (X : forall a, equiv_obj m v a c l L C n = equiv_obj m v a c' l L C n).
  { intros a. apply functional_extensionality. intros ts. unfold equiv_obj, residue. now rewrite (mech_args_ext m _ c c' l Q). }
  unfold mech_equiv_time. destruct (mc_kind m); [|reflexivity]. apply (f_equal (bind _)). apply functional_extensionality. intros a. now rewrite X.
Qed.

Lemma deg_ext m t v (c c' : dict (pyval V)) l L C n : eqd c c' -> mech_deg_vals m t v c l L C n = mech_deg_vals m t v c' l L C n.
Proof. intros Q. unfold mech_deg_vals, base_deg_vals. now rewrite (mech_args_ext m t c c' l Q). Qed.

Lemma bind_ext {A B} (m m' : M A) (f g : A -> M B) w : m w = m' w -> (forall a v, f a v = g a v) -> bind m f w = bind m' g w.
Proof. intros E F. unfold bind. rewrite E. destruct (m' w) as [[?|?] ?]; auto. Qed.

Ltac bx := apply bind_ext; [reflexivity|].

Lemma prm_equiv_ext (p : degprm V) mv (c c' : dict (pyval V)) m0 l L C n w : eqd c c' ->
  prm_equiv_times p mv c m0 l L C n w = prm_equiv_times p mv c' m0 l L C n w.
Proof.
  intros Q. apply foldM_ext. intros acc x v _. bx. intros mv1 v1. bx. intros mi v2. bx. intros l1 v3. now rewrite (equiv_ext _ _ _ _ _ _ _ _ Q).
Qed.

Lemma prm_deg_ext (p : degprm V) ts (c c' : dict (pyval V)) i0 l mv L C n w : eqd c c' ->
  prm_deg_vals p ts c i0 l mv L C n w = prm_deg_vals p ts c' i0 l mv L C n w.
Proof.
  intros Q. unfold prm_deg_vals. apply bind_ext; [|reflexivity].
  apply foldM_ext. intros acc x v _. bx. intros t1 v1. bx. intros mi v2. bx. intros l1 v3. now rewrite (deg_ext _ _ _ _ _ _ _ _ _ Q).
Qed.

Lemma dgetE_eqd2 {A} (cs cs' : dict (dict A)) k : eqd2 cs cs' ->
  (exists u v, dgetE cs k = Ok u /\ dgetE cs' k = Ok v /\ eqd u v) \/ (exists e, dgetE cs k = Err e /\ dgetE cs' k = Err e).
Proof.
  intros Q. specialize (Q k). unfold dgetE. destruct (dget cs k), (dget cs' k); try contradiction; [left|right]; eauto.
Qed.

Lemma stress_prm_ext (cs cs' : dict (dict (pyval V))) rep dur st kv w : eqd2 cs cs' ->
  stress_prm cs rep dur st kv w = stress_prm cs' rep dur st kv w.
Proof.
  intros Q. unfold stress_prm. bx. intros n v. bx. intros mv v'.
  destruct (dgetE_eqd2 cs cs' (fst kv) Q) as [(a & b & -> & -> & E)|(ex & -> & ->)]; [|reflexivity].
  unfold lift at 1 6. unfold bind at 1. unfold bind at 7. bx. intros m0 u. bx. intros ls u1.
  apply bind_ext; [now apply prm_equiv_ext|]. intros q u2. bx. intros t u3. bx. intros i0 u4.
  apply bind_ext; [|reflexivity]. now apply prm_deg_ext.
Qed.

Lemma cond_shifted_ext (p : degprm V) (c c' : dict (pyval V)) deg l L C k w : eqd c c' ->
  cond_shifted p c deg l L C k w = cond_shifted p c' deg l L C k w.
Proof.
  intros Q. unfold cond_shifted. bx. intros n v. bx. intros al v1. bx. intros cl v2.
  apply bind_ext; [|reflexivity]. unfold calc_cond_vals. now rewrite (gather_ext _ _ _ _ _ Q).
Qed.

Lemma measure_prm_ext (e : env V) d i (cs cs' : dict (dict (pyval V))) sc st rep prm k w : eqd2 cs cs' ->
  measure_prm e d i cs sc st rep prm k w = measure_prm e d i cs' sc st rep prm k w.
Proof.
  intros Q. unfold measure_prm. apply bind_ext; [|reflexivity].
  destruct (dget (st_prm st) prm) as [cur|], (dget d prm) as [[dp|cc]|]; try reflexivity.
  - destruct (dgetE_eqd2 cs cs' prm Q) as [(a & b & -> & -> & E)|(ex & -> & ->)]; [|reflexivity].
    unfold lift at 1 4. unfold bind at 1. unfold bind at 3. bx. intros ls u. apply bind_ext; [|reflexivity]. now apply cond_shifted_ext.
  - destruct (dgetE_eqd2 cs cs' prm Q) as [(a & b & -> & -> & E)|(ex & -> & ->)]; [|reflexivity].
    unfold lift at 1 4. unfold bind at 1. unfold bind at 3. bx. intros ls u. apply bind_ext; [|reflexivity]. unfold circ_vals. now rewrite (gather_ext _ _ _ _ _ E).
  - destruct (dmem sc prm); [|reflexivity]. destruct (dgetE_eqd2 cs cs' prm Q) as [(a & b & -> & -> & E)|(ex & -> & ->)]; [|reflexivity].
    unfold lift at 1 4. unfold bind at 1. unfold bind at 3. unfold dgetE. now rewrite (E prm).
Qed.

(** ** The orders of two interpreters *)
Variables Ho1 Ho2 : HashOrd.

Lemma incl_filter {A} (f : A -> bool) l : incl (filter f l) l.
Proof. intros x Hx. now apply filter_In in Hx. Qed.

Lemma deps_conds (Ho : HashOrd) (q : prm V) conds stress : incl (dependencies (H0 := Ho) q conds stress) conds.
Proof.
  assert (U : forall f : eqn V, incl (filter (fun a => smem a conds) (compute_args f)) conds).
  { intros f x Hx. apply filter_In in Hx as [_ Hx]. now apply smem_In in Hx. }
  destruct q as [p|c]; cbn [dependencies]; [|apply U]. unfold deg_dependencies. intros x Hx. apply (proj1 (proj2 (hord_ok _) x)) in Hx.
  apply in_app_iff in Hx as [Hx|Hx]; [now apply U in Hx|]. destruct stress; [|now apply U in Hx].
  apply in_flat_map in Hx as (y & _ & Hx). now apply U in Hx.
Qed.

Lemma prm_conds_order (e : env V) chip counts prm (q : M_Device.prm V) conds stress w r w' : separate e conds ->
  gen_prm_conds e chip counts prm (dependencies (H0 := Ho1) q conds stress) w = (Ok r, w') ->
  exists r', gen_prm_conds e chip counts prm (dependencies (H0 := Ho2) q conds stress) w = (Ok r', w') /\ eqd r r'.
Proof.
  intros S E. pose proof (deps_conds Ho1 q conds stress) as I.
  destruct q as [p|c]; cbn [dependencies] in *; [|exists r; split; [exact E|apply eqd_refl]].
  eapply prm_conds_perm; [| | |exact E].
  - apply NoDup_Permutation; try apply hord_ok. intros x. unfold deg_dependencies. etransitivity; [apply hord_ok|symmetry; apply hord_ok].
  - apply hord_ok.
  - intros c1 c2 m1 m2 I1 I2. apply S; now apply I.
Qed.

Lemma gen_env_order (e : env V) base prms info dev stress C L w r w' : separate e (dkeys base) ->
  gen_env_cond_vals (H1 := Ho1) e base prms info dev stress C L w = (Ok r, w') ->
  exists r', gen_env_cond_vals (H1 := Ho2) e base prms info dev stress C L w = (Ok r', w') /\ eqd2 r r'.
Proof.
  intros S E. unfold gen_env_cond_vals in *.
  apply bind_ok in E as (bc & w1 & E1 & E). apply bind_ok in E as (pc & w2 & E2 & E).
  assert (K : forall l acc acc' w r w', eqd2 acc acc' ->
    foldM (fun acc prm => (v <- (match (match dev with Some d => dget d prm | None => None end) with
                   | Some q => gen_prm_conds e (snd bc) (snd pc) prm (dependencies (H0 := Ho1) q (dkeys base) stress)
                   | None => gen_sensor_conds e (fst bc) (snd pc) prm
                   end) ;; ret (dset acc prm v))%m) l acc w = (Ok r, w') ->
    exists r', foldM (fun acc prm => (v <- (match (match dev with Some d => dget d prm | None => None end) with
                   | Some q => gen_prm_conds e (snd bc) (snd pc) prm (dependencies (H0 := Ho2) q (dkeys base) stress)
                   | None => gen_sensor_conds e (fst bc) (snd pc) prm
                   end) ;; ret (dset acc prm v))%m) l acc' w = (Ok r', w') /\ eqd2 r r').
  { clear E. induction l as [|x l IH]; intros acc acc' v s v' Q E; cbn [foldM] in *.
    - apply ret_ok in E as [-> ->]. exists acc'. auto.
    - apply bind_ok in E as (a1 & v1 & F1 & E). apply bind_ok in F1 as (a & v2 & F1 & F2). apply ret_ok in F2 as [-> ->].
      assert (X : exists a', (match (match dev with Some d => dget d x | None => None end) with
                   | Some q => gen_prm_conds e (snd bc) (snd pc) x (dependencies (H0 := Ho2) q (dkeys base) stress)
                   | None => gen_sensor_conds e (fst bc) (snd pc) x
                   end) v = (Ok a', v2) /\ eqd a a').
      { destruct (match dev with Some d => dget d x | None => None end) as [q|].
        - eapply prm_conds_order; [exact S|exact F1].
        - exists a. split; [exact F1|apply eqd_refl]. }
      destruct X as (a' & F2 & Qa). destruct (IH _ (dset acc' x a') _ _ _ (eqd2_dset _ _ x _ _ Q Qa) E) as (r' & E' & Q').
      exists r'. split; [|exact Q']. erewrite bind_eval; [exact E'|]. erewrite bind_eval; [reflexivity|exact F2]. }
  destruct (K _ [] [] _ _ _ (fun x => I) E) as (r' & E' & Q). exists r'. split; [|exact Q].
  erewrite bind_eval; [|exact E1]. erewrite bind_eval; [|exact E2]. exact E'.
Qed.

Lemma sim_step_order (e : env V) d sr ix r w w' : separate e (step_conds (snd ix)) ->
  sim_step (H1 := Ho1) e d sr ix w = (Ok r, w') -> sim_step (H1 := Ho2) e d sr ix w = (Ok r, w').
Proof.
  unfold sim_step. destruct (snd ix) as [s|m|o]; cbn [step_conds]; intros S E; auto.
  - unfold stress_step, meas_step in *. apply bind_ok in E as (cs & w1 & E1 & E).
    destruct (gen_env_order _ _ _ _ _ _ _ _ _ _ _ S E1) as (cs' & E1' & Q). erewrite bind_eval; [|exact E1']. rewrite <- E.
    symmetry. apply bind_ext; [|reflexivity]. apply foldM_ext. intros. apply bind_ext; [|reflexivity]. now apply measure_prm_ext.
  - unfold stress_step, meas_step in *. apply bind_ok in E as (cs & w1 & E1 & E).
    destruct (gen_env_order _ _ _ _ _ _ _ _ _ _ _ S E1) as (cs' & E1' & Q). erewrite bind_eval; [|exact E1']. rewrite <- E.
    symmetry. apply bind_ext; [|reflexivity]. apply foldM_ext. intros. now apply stress_prm_ext.
Qed.

Lemma run_steps_order (e : env V) d : forall steps i st rep r w w', (forall s, In s steps -> separate e (step_conds s)) ->
  run_steps (H1 := Ho1) e d i steps st rep w = (Ok r, w') -> run_steps (H1 := Ho2) e d i steps st rep w = (Ok r, w').
Proof.
  unfold run_steps. induction steps as [|s steps IH]; intros i st rep r w w' S E; cbn [enumerate foldM] in *; auto.
  apply bind_ok in E as ([st1 rep1] & w1 & E1 & E). erewrite bind_eval; [|apply sim_step_order; [apply S; now left|exact E1]].
  apply IH; auto. intros; apply S; now right.
Qed.

Lemma simulate_order (e : env V) d steps C L init r w w' : (forall s, In s steps -> separate e (step_conds s)) ->
  simulate (H1 := Ho1) e d steps C L init w = (Ok r, w') -> simulate (H1 := Ho2) e d steps C L init w = (Ok r, w').
Proof.
  intros S E. unfold simulate in *. destruct init as [st|]; [now apply run_steps_order|].
  apply bind_ok in E as (ir & w1 & E1 & E). erewrite bind_eval; [|exact E1].
  destruct (ir_report ir); [|discriminate]. now apply run_steps_order.
Qed.
End L.
