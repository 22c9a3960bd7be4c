(** The riverbed demonstration script. *)
From Coq Require Import QArith Lia.
From Verif Require Import M_Base M_Num M_Nd M_RandVar M_Latent M_Time M_TestSpec M_Device M_Report M_Env M_Sim M_Demo
  S_Latent S_TestSpec S_Device S_Env S_Sim S_Shape S_Total S_Rows S_Demo L_Base L_TestSpec L_Env L_Sim L_Shape L_Shape2 L_Total L_Total2 L_Rows L_Demo.
Open Scope nat_scope.

Ltac fine_step := split; [repeat split; repeat constructor; cbn; intuition discriminate|split; [cbn; intuition (subst; discriminate)|discriminate]].
Ltac part := first [exact none_ok | apply normal_ok; [assumption|discriminate] | apply gamma_ok; assumption | discriminate].

Section L.
Context {V : Type} `{NumOps V} `{Rng V} `{HashOrd}.
Variables (gen : nat -> nat).
Hypotheses (Hnp : numpy_accepts V) (Hli : literals V).

Lemma river_given : given_by (V := V) river_eqn
  (FMap2 nmul (FArg "time") (FMap2 nmaximum (FMap2 nmul (FArg "k_d") (FMap2 nsub (FMap2 nmul (FArg "alpha") (FArg "tau")) (FArg "tau_c"))) (FNum (lit 0)))).
Proof. split; [reflexivity|]. split; [reflexivity|]. split; [intros x; cbn; tauto|reflexivity]. Qed.
Lemma river_own_given : given_by (V := V) river_own (FMap2 nadd (FMap2 nsub (FArg "init") (FArg "erosion")) (FArg "cond")).
Proof. split; [reflexivity|]. split; [reflexivity|]. split; [intros x; cbn; tauto|reflexivity]. Qed.

Definition season (tau : Q) (name : string) : step V := SStrs (StrsSpec [("tau"%string, lit tau)] 7884000000000 name).
Definition seasons : list (step V) :=
  [season 7 "Spring Season Flow"; season 4 "Summer Season Flow"; season 2 "Autumn Season Flow"; season 2 "Winter Season Flow"; river_meas].
Definition river_steps : list (step V) := river_meas :: cycles 10 seasons.

Lemma river_test_steps fuel : 10 <= fuel -> river_test (V := V) fuel = Ok river_steps.
Proof.
  intros Hf. unfold river_test. change (stress [("tau"%string, lit 4)] (8760 / 4) "Summer Season Flow") with (Ok (season 4 "Summer Season Flow")).
  change (stress [("tau"%string, lit 2)] (8760 / 4) "Autumn Season Flow") with (Ok (season 2 "Autumn Season Flow")).
  change (stress [("tau"%string, lit 2)] (8760 / 4) "Winter Season Flow") with (Ok (season 2 "Winter Season Flow")).
  change (stress [("tau"%string, lit 7)] (8760 / 4) "Spring Season Flow") with (Ok (season 7 "Spring Season Flow")).
  cbn [rbind]. apply (looped_steps 10); [reflexivity|exact Hf].
Qed.

Lemma river_In s : In s river_steps -> In s seasons.
Proof. intros [<-|Hs]; [cbn; auto 6|now apply cycles_In in Hs]. Qed.

Lemma river_env_total : has_digits V -> exists e, river_env gen = Ok e /\ env_ok e river_steps.
Proof.
  intros Hd. unfold river_env.
  destruct (vrtn_total (normal gen 0 0 (2 # 10)) (normal gen 1 0 (8 # 10)) (normal gen 2 0 (12 # 10))) as (t & -> & Ot); try part. cbn [rbind].
  assert (E : exists e, env_init [t] (RDict [("tau"%string, 0)]) [Instm None (Some 3%Z) (normal gen 3 0 (5 # 1000)) None] (RDict [("riverbed_level"%string, 0)]) = Ok e)
    by (eexists; reflexivity).
  destruct E as [e E]. exists e. split; auto. eapply env_init_ok; [| |exact E| |].
  - split; repeat constructor; intros [].
  - split; repeat constructor; intros [].
  - intros n m Gm. cbn [given dget] in Gm. destruct (String.eqb n "tau"); [|discriminate]. injection Gm as <-. exact Ot.
  - intros n i Gi. cbn [given dget] in Gi. destruct (String.eqb n "riverbed_level") eqn:Q; [|discriminate]. injection Gi as <-. apply String.eqb_eq in Q as ->.
    split; [discriminate|]. intros _. split; [|right; right; exact Hd]. exact (normal_ok gen 3 0 (5 # 1000) Hnp ltac:(discriminate)).
Qed.

Lemma river_runs fuel w : has_digits V -> 10 <= fuel ->
  exists rep w', river_run gen fuel w = (Ok rep, w') /\ reported river_steps 5 1 "riverbed_level" "riverbed_level" 10 w rep w'.
Proof.
  intros Hd Hf. unfold river_run. pose proof (river_test_steps fuel Hf) as El.
  destruct (river_env_total Hd) as (e & Ee & Oe).
  destruct (deter_total (1 # 100000)) as (k_d & E1 & O1).
  destruct (latent_total (normal gen 4 (24 # 10) (2 # 100)) (normal gen 5 1 (2 # 10)) None) as (tau_c & E2 & O2); try part.
  destruct (latent_total (normal gen 6 (9 # 10) (1 # 100)) (normal gen 7 1 (4 # 100)) None) as (alpha & E3 & O3); try part.
  destruct (latent_total (normal gen 8 (-2) (1 # 100)) (normal gen 9 1 (2 # 100)) None) as (i & E4 & O4); try part.
  set (mechs := [("erosion"%string, mech_of KDeg river_eqn [("k_d", k_d); ("tau_c", tau_c); ("alpha", alpha)]%string None)]).
  set (p := DegPrm (init_of i) no_cond n0 (with_units (Some "hours"%string) mechs) (LMdl river_own [])).
  assert (Ed : river_device gen = Ok [("riverbed_level"%string, PDeg p)]) by (unfold river_device; rewrite E1, E2, E3, E4; reflexivity).
  assert (M : measures river_steps (MeasSpec [("riverbed_level"%string, 10)] [("tau"%string, lit 3)] "Bed Height Sampling")).
  { split; [now left|]. intros m' Hm'. apply river_In in Hm' as [Q|[Q|[Q|[Q|[Q|[]]]]]]; try discriminate Q; now injection Q as <-. }
  destruct (one_reported e "riverbed_level" p river_steps _ 10 5 1 w M eq_refl) as (st & rep & w' & E & Rp); auto.
  - discriminate.
  - apply (prm_of_deg mechs i (LMdl river_own []) (Some "hours"%string) None); auto.
    + intros x o [].
    + intros x [<-|[]]. split; discriminate.
    + intros x [<-|[<-|[<-|[]]]]; cbn; auto.
    + intros _ x [->|[->|[<-|[]]]]; left; cbn; auto.
    + eapply formula_somehow, river_own_given.
    + intros nm m [Q|[]]. injection Q as <- <-. split; [|split; [|split; [|split]]].
      * intros x o [Q|[Q|[Q|[]]]]; injection Q as <- <-; auto.
      * left. now left.
      * eapply formula_somehow, river_given.
      * discriminate.
      * intros x [<-|[<-|[<-|[<-|[<-|[]]]]]]; cbn; auto 6. right; right. intros s Hs.
        apply river_In in Hs as [Q|[Q|[Q|[Q|[Q|[]]]]]]; try discriminate Q; injection Q as <-; now left.
  - apply prm_of_fine; [apply respects_follows; eapply formula_respects, river_own_given|].
    intros nm m [Q|[]]. injection Q as <- <-. eapply formula_numeric, river_given.
  - repeat constructor. intros [].
  - intros s Hs. apply river_In in Hs as [<-|[<-|[<-|[<-|[<-|[]]]]]]; fine_step.
  - exists rep, w'. split; [|exact Rp].
    rewrite (lift_eval _ _ _ w El), (lift_eval _ _ _ w Ee), (lift_eval _ _ _ w Ed), (bind_eval _ _ _ _ _ E). reflexivity.
Qed.
Theorem river_passes fuel w : has_digits V -> 10 <= fuel -> exists w', river_entry gen fuel w = (Ok 0%Z, w').
Proof.
  intros Hd Hf. destruct (river_runs fuel w Hd Hf) as (rep & w' & E & (_ & _ & _ & _ & _ & _ & _ & T & Sm & G & _)). exists w'. unfold river_entry. rewrite (bind_eval _ _ _ _ _ E).
    destruct (summary_at _ _ 33 _ Sm eq_refl) as (r1 & N1 & S1 & _). destruct (summary_at _ _ 42 _ Sm eq_refl) as (r2 & N2 & _ & S2).
    unfold lift. f_equal. rewrite (rows_says rep 550 T), (count_says rep _ _ G), (at_says _ _ "tau" _ _ N2 (S2 "tau"%string _ eq_refl)).
    rewrite (at_says _ _ "step name" _ _ N1 (proj1 S1)). cbn [rbind is_num is_str]. unfold lit. rewrite (proj1 (li_same Hli)). reflexivity.
Qed.
End L.
