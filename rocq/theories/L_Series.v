(** Every device has one row for each measurement that asks for it (C92). *)
From Coq Require Import QArith Lia Sorted.
From Verif Require Import M_Base M_Num M_Nd M_RandVar M_Latent M_Time M_TestSpec M_Minimize M_Device M_Report M_Env M_Sim
  S_TestSpec S_Device S_Sim S_Shape S_Series L_Base L_Nd L_Latent L_TestSpec L_Device L_Device2 L_Device3 L_Env L_Env2 L_Env3 L_Sim L_Sim2 L_Sim3 L_Report L_Shape L_Shape2.
Open Scope nat_scope.

Section L.
Context {V : Type} `{NumOps V}.
Implicit Types (l : list (step V)).

Lemma filter_none {A} (f : A -> bool) g : (forall x, In x g -> f x = false) -> filter f g = [].
Proof. induction g as [|y g IH]; intros Hn; cbn; auto. rewrite (Hn y) by now left. apply IH. intros x Hx. apply Hn. now right. Qed.

Lemma filter_one {A} (f : A -> bool) : forall g i r, nth_error g i = Some r -> f r = true ->
  (forall j x, nth_error g j = Some x -> f x = true -> j = i) -> filter f g = [r].
Proof.
  induction g as [|y g IH]; intros [|i] r Hi Hr Hu; try discriminate Hi.
  - injection Hi as ->. cbn. rewrite Hr. f_equal. apply filter_none. intros x Hx. apply In_nth_error in Hx as (j & Hj).
    destruct (f x) eqn:Q; auto. specialize (Hu (S j) x Hj Q). discriminate.
  - cbn [nth_error] in Hi. cbn. destruct (f y) eqn:Q; [specialize (Hu 0 y eq_refl Q); discriminate|]. apply (IH i); auto.
    intros j x Hj Hx. specialize (Hu (S j) x Hj Hx). lia.
Qed.

Lemma place C k j L : j < L * C * k -> exists a b c, a < L /\ b < C /\ c < k /\ j = (a * C + b) * k + c.
Proof.
  intros Hj. assert (k <> 0) by (intros ->; lia). assert (C <> 0) by (intros ->; lia).
  exists (j / k / C), ((j / k) mod C), (j mod k).
  assert (A := Nat.div_mod j k ltac:(auto)). assert (B := Nat.div_mod (j / k) C ltac:(auto)).
  assert (Hm := Nat.mod_upper_bound j k ltac:(auto)). assert (Hm' := Nat.mod_upper_bound (j / k) C ltac:(auto)).
  assert (Q : j / k < L * C) by (apply Nat.div_lt_upper_bound; auto; lia).
  assert (Q' : j / k / C < L) by (apply Nat.div_lt_upper_bound; auto; lia).
  repeat split; auto. nia.
Qed.

Lemma is_no_some o n : is_no o n = true <-> o = Some n.
Proof. destruct o as [m|]; cbn; [rewrite Nat.eqb_eq|]; split; congruence. Qed.

Lemma belongs_iff name a b c (r : row V) : belongs name a b c r = true <-> r_param r = name /\ r_lot r = Some a /\ r_chp r = Some b /\ r_dev r = Some c.
Proof. unfold belongs. rewrite !Bool.andb_true_iff, !is_no_some, String.eqb_eq. tauto. Qed.

Lemma group_series L C k (g : list (row V)) name a b c i t : labelled L C k g -> stamped i t (name, k) g -> a < L -> b < C ->
  (c < k -> exists r, series name a b c g = [r] /\ r_step r = i /\ r_time r = t) /\ (k <= c -> series name a b c g = []).
Proof.
  intros (Ln & Lb) St Ha Hb. split.
  - intros Hc. destruct (Lb a b c Ha Hb Hc) as (r & Hr & R1 & R2 & R3). destruct (St r (nth_error_In _ _ Hr)) as (P1 & P2 & P3). exists r. split; auto.
    apply (filter_one _ _ ((a * C + b) * k + c)); auto; [now apply belongs_iff|].
    intros j x Hj Hx. apply belongs_iff in Hx as (_ & X1 & X2 & X3). assert (Hl : j < L * C * k) by (rewrite <- Ln; apply nth_error_Some; congruence).
    destruct (place C k j L Hl) as (a' & b' & c' & Ha' & Hb' & Hc' & ->). destruct (Lb a' b' c' Ha' Hb' Hc') as (y & Hy & Y1 & Y2 & Y3). congruence.
  - intros Hc. apply filter_none. intros x Hx. destruct (belongs name a b c x) eqn:Q; auto. apply belongs_iff in Q as (_ & X1 & X2 & X3).
    apply In_nth_error in Hx as (j & Hj). assert (Hl : j < L * C * k) by (rewrite <- Ln; apply nth_error_Some; congruence).
    destruct (place C k j L Hl) as (a' & b' & c' & Ha' & Hb' & Hc' & ->). destruct (Lb a' b' c' Ha' Hb' Hc') as (y & Hy & Y1 & Y2 & Y3).
    rewrite Hj in Hy. injection Hy as <-. assert (c' = c) by congruence. lia.
Qed.

Lemma other_series (kv : string * nat) (g : list (row V)) name a b c i t : stamped i t kv g -> fst kv <> name -> series name a b c g = [].
Proof. intros St N. apply filter_none. intros x Hx. destruct (belongs name a b c x) eqn:Q; auto. apply belongs_iff in Q as (X & _). destruct (St x Hx) as (Y & _). congruence. Qed.

Lemma series_app name a b c (g g' : list (row V)) : series name a b c (g ++ g') = series name a b c g ++ series name a b c g'.
Proof. apply filter_app. Qed.

(** One measurement. *)
Lemma groups_series (P : string * nat -> list (row V) -> Prop) L C name a b c i t : a < L -> b < C ->
  (forall k g, P (name, k) g -> labelled L C k g) ->
  forall counts gs, dwf counts -> Forall2 (fun kv g => stamped i (TD t) kv g /\ P kv g) counts gs ->
  Forall2 at_step (match dget counts name with Some k => if Nat.ltb c k then [(i, t)] else [] | None => [] end) (series name a b c (concat gs)).
Proof.
  intros Ha Hb HP counts gs W F. induction F as [|[x k] g counts gs [St Hg] F IH]; [constructor|].
  cbn [concat]. rewrite series_app. cbn [dget]. apply NoDup_cons_iff in W as (Nx & W). specialize (IH W). destruct (String.eqb_spec name x) as [->|N].
  - assert (E : dget counts x = None) by now apply dget_None_keys. rewrite E in IH. inversion IH as [Q1 Q2|]; subst. rewrite app_nil_r.
    destruct (group_series L C k g x a b c i (TD t) (HP _ _ Hg) St Ha Hb) as (G1 & G2). destruct (Nat.ltb_spec c k) as [Q|Q].
    + destruct (G1 Q) as (r & -> & R1 & R2). repeat constructor; auto.
    + rewrite (G2 Q). constructor.
  - rewrite (other_series (x, k) g name a b c i (TD t) St ltac:(cbn; congruence)). exact IH.
Qed.

Lemma table_series (P : string * nat -> list (row V) -> Prop) L C name a b c : a < L -> b < C -> (forall k g, P (name, k) g -> labelled L C k g) ->
  forall i t l rows, (forall s, In s l -> step_wf s) -> table_of (fun i t kv g => stamped i t kv g /\ P kv g) i t l rows -> forall z, t = TD z ->
  Forall2 at_step (asked name c i z l) (series name a b c rows).
Proof.
  intros Ha Hb HP i t l rows W T. induction T as [i t|i t o l rs T IH|i t m l gs rs F T IH|i t s l rs T IH]; intros z E; cbn [asked].
  - constructor.
  - apply IH; auto. intros s Hs. apply W. now right.
  - rewrite series_app. subst t. apply Forall2_app.
    + eapply groups_series; eauto. apply (W (SMeas m)). now left.
    + apply IH; auto. intros s Hs. apply W. now right.
  - injection E as ->. apply IH; auto. intros s' Hs. apply W. now right.
Qed.

(** Every row of the parameter is in a series. *)
Lemma table_covered (P : string * nat -> list (row V) -> Prop) L C name : (forall k g, P (name, k) g -> labelled L C k g) ->
  forall i t l rows, table_of (fun i t kv g => stamped i t kv g /\ P kv g) i t l rows ->
  forall r, In r rows -> r_param r = name -> exists a b c, a < L /\ b < C /\ belongs name a b c r = true.
Proof.
  intros HP i t l rows T. induction T as [i t|i t o l rs T IH|i t m l gs rs F T IH|i t s l rs T IH]; intros r Hr E; auto; [destruct Hr|].
  apply in_app_or in Hr as [Hr|Hr]; auto. apply in_concat in Hr as (g & Hg & Hr).
  induction F as [|[x k] g' counts gs (St & Hp) F IHF]; [destruct Hg|]. destruct Hg as [->|Hg]; auto.
  destruct (St r Hr) as (Q & _). cbn [fst] in Q. rewrite E in Q. subst x. destruct (HP _ _ Hp) as (Ln & Lb).
  apply In_nth_error in Hr as (j & Hj). assert (Hl : j < L * C * k) by (rewrite <- Ln; apply nth_error_Some; congruence).
  destruct (place C k j L Hl) as (a & b & c & Ha & Hb & Hc & ->). destruct (Lb a b c Ha Hb Hc) as (y & Hy & Y1 & Y2 & Y3).
  rewrite Hj in Hy. injection Hy as <-. exists a, b, c. split; auto. split; auto. now apply belongs_iff.
Qed.
End L.

(** Whole simulations: the table of [simulate_shapes] with the labels of its rows. *)
Section Sim.
Context {V : Type} `{NumOps V} `{Rng V} `{HashOrd}.

Lemma run_stamped_shapes e (d : device V) l (i : nat) st rep w st' rep' w' :
  device_wf d -> regular d -> (forall s, In s l -> step_wf s) ->
  (forall x k n p, requests l x k -> dget d x = Some (PDeg p) -> dget (rp_counts rep) x = Some n -> k <= n) ->
  state_fits d (rp_lots rep) (rp_chps rep) (rp_counts rep) st ->
  run_steps e d i l st rep w = (Ok (st', rep'), w') ->
  exists rows : list (row V), rp_meas rep' = rp_meas rep ++ rows /\ table_of (fun i t kv g => stamped i t kv g /\ rows_fit d (rp_lots rep) (rp_chps rep) kv g) i (st_elapsed st) l rows.
Proof.
  intros W Rg Ws Hk F E.
  eapply run_tableP with (P := fun s => step_wf s /\ forall m, s = SMeas m -> incl (ms_counts m) (flat_map (fun s => match s with SMeas m => ms_counts m | _ => [] end) l))
    (I := state_fits d (rp_lots rep) (rp_chps rep) (rp_counts rep)) (rep0 := rep)
    (group := fun i t kv g => stamped i t kv g /\ rows_fit d (rp_lots rep) (rp_chps rep) kv g) in E as (X & _); eauto; [| | |now repeat split].
  - intros j s s1 r1 w1 s2 r2 w2 [Hs _] (Q1 & Q2 & Q3) Hf Es. eapply stress_step_shape with (ns := any) in Es; unfold any; eauto using regular_all; rewrite Q1, Q2, Q3 in *; auto.
  - intros j m s1 r1 w1 conds w2 [prm k] w3 g w4 [[Hs1 Hs2] Hi] (Q1 & Q2 & Q3) Hf Ec Hin Em. cbn [fst snd] in *.
    split; [eapply measure_prm_stamp; eauto|]. rewrite <- Q1, <- Q2, <- Q3 in *.
    destruct (dget (rp_counts r1) prm) as [n|] eqn:Hn.
    + eapply measure_shape with (n := n) (ns := any); unfold any; eauto using regular_all. intros p Hp. split; [exact Hn|]. eapply Hk; eauto.
      specialize (Hi m eq_refl _ Hin). apply in_flat_map in Hi as (s & Hl & Hi). destruct s as [m'|?|?]; [exists m'; auto|destruct Hi|destruct Hi].
    + eapply measure_shape with (n := 0) (ns := any); unfold any; eauto using regular_all. intros p Hp. destruct (Hf _ _ Hp) as (n & ? & ? & ? & ? & Q & _). congruence.
  - intros s Hin. split; auto. intros m -> x Hx. apply in_flat_map. exists (SMeas m). auto.
Qed.

Lemma simulate_table e (d : device V) l C L w st' rep' w' :
  device_wf d -> regular d -> (forall s, In s l -> step_wf s) ->
  simulate e d l C L None w = (Ok (st', rep'), w') ->
  table_of (fun i t kv g => stamped i t kv g /\ rows_fit d L C kv g) 0 (TD 0) l (rp_meas rep').
Proof.
  intros W Rg Ws E. apply simulate_run in E as (st0 & rep0 & w0 & E & M0 & _ & C0 & L0 & T0 & _ & _ & _ & st1 & Ei & -> & Q); auto.
  apply dev_init_shape with (ns := any) in Ei; unfold any; auto using regular_all.
  apply run_stamped_shapes in E as (rows & R1 & R2); auto.
  - cbn [set_elapsed st_elapsed] in R2. rewrite M0, C0, L0 in *. cbn [app] in R1. rewrite R1. exact R2.
  - intros x k n p Hr Hp Hn.
    destruct (calc_samples_bound l) as (_ & _ & Hub). destruct (Hub _ _ Hr) as (y & Hy & Hle).
    destruct (augment_mono d (dkeys (calc_samples_needed l)) (calc_samples_needed l, None) x y Hy) as (z & Hz & Hle').
    rewrite Q, Hz in Hn. injection Hn as <-. lia.
  - rewrite C0, L0. exact Ei.
Qed.

Lemma simulate_series e (d : device V) l C L w st' rep' w' name p a b c :
  device_wf d -> regular d -> (forall s, In s l -> step_wf s) ->
  simulate e d l C L None w = (Ok (st', rep'), w') -> dget d name = Some (PDeg p) -> a < L -> b < C ->
  Forall2 at_step (asked name c 0 0 l) (series name a b c (rp_meas rep')).
Proof.
  intros W Rg Ws E Hp Ha Hb. eapply (table_series (rows_fit d L C) L C); eauto using simulate_table.
  intros k g Hg. unfold rows_fit in Hg. cbn [fst snd] in Hg. now rewrite Hp in Hg.
Qed.

Lemma simulate_covered e (d : device V) l C L w st' rep' w' name p r :
  device_wf d -> regular d -> (forall s, In s l -> step_wf s) ->
  simulate e d l C L None w = (Ok (st', rep'), w') -> dget d name = Some (PDeg p) ->
  In r (rp_meas rep') -> r_param r = name -> exists a b c, a < L /\ b < C /\ belongs name a b c r = true.
Proof.
  intros W Rg Ws E Hp Hr Hn. eapply (table_covered (rows_fit d L C) L C); eauto using simulate_table.
  intros k g Hg. unfold rows_fit in Hg. cbn [fst snd] in Hg. now rewrite Hp in Hg.
Qed.
End Sim.

Section Sorted.
Context {V : Type} `{NumOps V}.
Lemma asked_ge name c : forall (l : list (step V)) i t x, In x (asked name c i t l) -> i <= fst x.
Proof.
  induction l as [|[m|s|o] l IH]; intros i t x Hx; cbn [asked] in Hx; [destruct Hx| | |].
  - apply in_app_or in Hx as [Hx|Hx]; [|apply IH in Hx; lia]. destruct (dget (ms_counts m) name) as [k|]; [|destruct Hx].
    destruct (c <? k); [|destruct Hx]. destruct Hx as [<-|[]]. cbn. lia.
  - apply IH in Hx. lia.
  - apply IH in Hx. lia.
Qed.
Lemma asked_sorted name c : forall (l : list (step V)) i t, StronglySorted lt (map fst (asked name c i t l)).
Proof.
  induction l as [|[m|s|o] l IH]; intros i t; cbn [asked]; [constructor| |apply IH|apply IH].
  destruct (dget (ms_counts m) name) as [k|]; [|apply IH]. destruct (c <? k); [|apply IH]. cbn [app map fst]. constructor; [apply IH|].
  apply Forall_forall. intros x Hx. apply in_map_iff in Hx as (y & <- & Hy). apply asked_ge in Hy. lia.
Qed.
Lemma at_steps (a : list (nat * Z)) (rs : list (row V)) : Forall2 at_step a rs -> map r_step rs = map fst a.
Proof. induction 1 as [|x r a rs (E & _) F IH]; cbn; congruence. Qed.

(** Rows with the same name and device are of different steps. *)
Lemma sorted_steps name a b c : forall rows : list (row V), StronglySorted lt (map r_step (series name a b c rows)) ->
  forall i j x y, i < j -> nth_error rows i = Some x -> nth_error rows j = Some y -> belongs name a b c x = true -> belongs name a b c y = true ->
  r_step x < r_step y.
Proof.
  induction rows as [|r rows IH]; intros St i j x y Hij Hi Hj Bx By; [destruct i; discriminate|].
  destruct j as [|j]; [lia|]. cbn [nth_error] in Hj. destruct i as [|i]; cbn [nth_error] in Hi.
  - injection Hi as ->. cbn [series filter] in St. rewrite Bx in St. cbn [map] in St. inversion St as [|z zs S1 S2]; subst.
    rewrite Forall_forall in S2. apply S2. apply in_map. apply filter_In. split; auto. now apply nth_error_In in Hj.
  - apply (IH) with (i := i) (j := j); auto; [|lia]. cbn [series filter] in St. destruct (belongs name a b c r); auto. cbn [map] in St. now inversion St.
Qed.
End Sorted.
