(** Means, variances and correlations of the readings of a first measurement. *)
From Coq Require Import Reals Qreals List Lia Lra Bool String FunctionalExtensionality Classical_Prop.
From Coq.micromega Require RMicromega.
From Verif Require Import M_Base M_Num M_NumR M_Nd M_RandVar M_Latent M_Time M_TestSpec M_Device M_Report M_Env M_Sim S_Latent S_Device S_Env S_Sim S_Shape S_Total S_Reading
  L_Base L_Latent L_Device L_Sim L_Sim2 L_Sim3 L_Shape2 L_Value L_Reading L_Const L_TestSpec L_Shape L_Total L_Moments3 S_Moments L_Moments L_Moments2 S_Moments2 L_Moments4 L_Moments5 L_Moments6.
Import ListNotations.
Open Scope R_scope.

Lemma find_app_none {A} (f : A -> bool) a b : (forall x, In x a -> f x = false) -> find f (a ++ b) = find f b.
Proof. induction a as [|x a IH]; intros K; cbn [app find]; [reflexivity|]. rewrite (K x (or_introl eq_refl)). apply IH. intros y Hy. apply K. now right. Qed.
Lemma find_app_some {A} (f : A -> bool) a b r : find f a = Some r -> find f (a ++ b) = Some r.
Proof. induction a as [|x a IH]; cbn [app find]; [discriminate|]. destruct (f x); auto. Qed.

Lemma group_split {B} (P : string * nat -> B -> Prop) (Q : list (string * nat)) : forall gs a, Forall2 P Q gs -> NoDup (map fst Q) -> In a Q ->
  exists gs1 g gs2, gs = gs1 ++ g :: gs2 /\ P a g /\ forall h, In h gs1 -> exists b, P b h /\ fst b <> fst a.
Proof.
  intros gs a Hf. induction Hf as [|x y Q gs Hxy Hf IH]; intros N Ha; [destruct Ha|]. cbn [map] in N. inversion N as [|? ? Nx N']; subst.
  destruct Ha as [->|Ha].
  - exists [], y, gs. split; [reflexivity|]. split; [exact Hxy|intros h []].
  - destruct (IH N' Ha) as (g1 & g & g2 & -> & Pg & Ph). exists (y :: g1), g, g2. split; [reflexivity|]. split; [exact Pg|].
    intros h [<-|Hh]; [|now apply Ph]. exists x. split; [exact Hxy|]. intros K. apply Nx. rewrite K. now apply in_map.
Qed.

Lemma labelled_find L C k (g : list (row R)) name i : labelled L C k g -> (forall r, In r g -> r_param r = name) -> inside k C L i ->
  exists r, find (is_row name i) g = Some r /\ nth_error g ((fst (fst i) * C + snd (fst i)) * k + snd i) = Some r.
Proof.
  intros [Ln Lb] Pn (Hl & Hc & Hk).
  set (pos := ((fst (fst i) * C + snd (fst i)) * k + snd i)%nat).
  destruct (Lb _ _ _ Hl Hc Hk) as (r & Gr & A1 & A2 & A3). fold pos in Gr.
  assert (Mr : is_row name i r = true).
  { unfold is_row. rewrite A1, A2, A3, (Pn r) by (eapply nth_error_In; eassumption). now rewrite String.eqb_refl, !Nat.eqb_refl. }
  destruct (find (is_row name i) g) as [r'|] eqn:Ef.
  2:{ pose proof (find_none _ _ Ef r (nth_error_In _ _ Gr)). congruence. }
  exists r'. split; [reflexivity|]. apply find_some in Ef as [Hin Mr']. apply In_nth_error in Hin as (q & Gq).
  assert (Hq : (q < L * C * k)%nat) by (rewrite <- Ln; apply nth_error_Some; congruence).
  assert (Hk0 : k <> 0%nat) by lia. assert (Hc0 : C <> 0%nat) by lia.
  set (a := (q / k / C)%nat). set (b := ((q / k) mod C)%nat). set (c := (q mod k)%nat).
  assert (Eq : q = ((a * C + b) * k + c)%nat).
  { unfold a, b, c. pose proof (Nat.div_mod q k Hk0). pose proof (Nat.div_mod (q / k) C Hc0). nia. }
  assert (Hb : (b < C)%nat) by (now apply Nat.mod_upper_bound). assert (Hcc : (c < k)%nat) by (now apply Nat.mod_upper_bound).
  assert (Ha : (a < L)%nat) by nia.
  destruct (Lb _ _ _ Ha Hb Hcc) as (r2 & G2 & B1 & B2 & B3). rewrite <- Eq, Gq in G2. injection G2 as <-.
  unfold is_row in Mr'. rewrite B1, B2, B3 in Mr'. rewrite !andb_true_iff, !Nat.eqb_eq in Mr'. destruct Mr' as (_ & (M1 & M2) & M3).
  rewrite <- Gq. f_equal. unfold pos. rewrite Eq. congruence.
Qed.

Lemma dwf_device {G : Rng R} d counts : sampled_device d counts -> device_wf d.
Proof.
  intros S. split; [apply (sd_wf _ _ S)|]. intros name p Hp. apply dget_In in Hp. apply (sd_names _ _ S) in Hp. apply Hp.
Qed.

Section First.
Context {G : Rng R} {Ho : HashOrd}.

(** The first reading of a device is its initial value. *)
Lemma first_reading_init e d m l2 C L w st rep w' name k p o i : sampled_device d (rp_counts rep) -> regular d ->
  (forall s, In s (SMeas m :: l2) -> step_wf s) ->
  (forall q p, dget d q = Some (PDeg p) -> ~ In "init"%string (dkeys (dp_mechs p)) /\ ~ In "cond"%string (dkeys (dp_mechs p))) ->
  simulate e d (SMeas m :: l2) C L None w = (Ok (st, rep), w') ->
  plainly_read e d name p o -> In (name, k) (ms_counts m) -> inside k C L i ->
  exists n st0 w0, dget (rp_counts rep) name = Some n /\ (k <= n)%nat /\ dev_init_state d (rp_counts rep) C L w = (Ok (st0, rp_counts rep), w0) /\
    first_reading name i (rp_meas rep) = Some (state_sample C (Ok (st0, rp_counts rep)) (Drawing (Place name Init "init_val") n o) i).
Proof.
  intros Sd Rg Ws Pn E Pr Hin Hi. pose proof (dwf_device d _ Sd) as Wd.
  destruct (simulate_measured e d [] m l2 C L w st rep w' Wd Rg Ws Pn E)
    as (st0 & rep0 & w0 & st1 & rep1 & w1 & conds & w2 & groups & rest & B1 & B2 & B3 & B4 & B5 & B6 & B7 & B8 & B9 & B10).
  cbn [run_steps] in B7. assert (st1 = set_elapsed st0 (TD 0) /\ rep1 = rep0) as [-> ->] by (apply ret_ok in B7 as [K _]; injection K; auto).
  rewrite B2 in B9. cbn [app] in B9.
  assert (Wc : NoDup (map fst (ms_counts m))) by (apply (Ws (SMeas m) (or_introl eq_refl))).
  destruct (group_split _ _ _ _ B10 Wc Hin) as (gs1 & g & gs2 & -> & (Mg & Sg) & Oth).
  pose proof Pr as [Hp Ne Eo Ec Eu [Nm1 Nm2] Einit Evar]. destruct (Pn _ _ Hp) as [Pi Pc].
  assert (Lb : labelled L C k g).
  { destruct Mg as (cs & _ & Mg). cbn [fst snd] in Mg. rewrite Hp in Mg. now destruct Mg as (tr & _ & _ & Mg). }
  destruct (labelled_find L C k g name i Lb) as (r & Fr & Gr); [intros x Hx; exact (proj1 (Sg x Hx))|exact Hi|].
  pose proof B1 as Ei. apply dev_init_ok in Ei as (_ & _ & _ & _ & _ & Gp & _); [|apply Wd].
  destruct (Gp _ _ Hp) as (n & lats & v & wa & wb & wc & G1 & G2 & G3 & _ & G5 & G6).
  assert (Lk : dget lats "mechs" = None).
  { apply dget_None_keys. intros Hx. apply (prm_latents_keys _ _ _ _ _ _ _ G3) in Hx as [Hx|[Hx|Hx]]; [discriminate|auto|auto]. }
  assert (Hkn : (k <= n)%nat).
  { apply simulate_run in E as (sa & ra & wx & Er & _ & _ & _ & _ & _ & _ & _ & _ & sb & _ & _ & Q); [|exact Wd].
    pose proof (run_same _ _ _ _ _ _ _ _ _ _ Er) as (_ & _ & _ & S1 & _).
    destruct (calc_samples_bound (SMeas m :: l2)) as (_ & _ & Hub). destruct (Hub name k) as (y & Hy & Hle).
    { exists m. split; [now left|exact Hin]. }
    destruct (augment_mono d (dkeys (calc_samples_needed (SMeas m :: l2))) (calc_samples_needed (SMeas m :: l2), None) name y Hy) as (z & Hz & Hle').
    rewrite S1, Q, Hz in G1. injection G1 as <-. lia. }
  exists n, st0, w0. split; [exact G1|]. split; [exact Hkn|]. split; [exact B1|].
  destruct (measured_exact e d L C (set_elapsed st0 (TD 0)) conds name k g p) as (cur & Hcur & Hread); auto.
  { rewrite n0_R. cbn. ring. }
  { rewrite n0_R. exact Ec. }
  { intros nm mm Hm. rewrite n0_R. exact (Eu nm mm Hm). }
  { cbn [set_elapsed st_lat]. intros ls Hls. congruence. }
  destruct Hi as (Hl & Hc & Hk). destruct (Hread _ _ _ Hl Hc Hk) as (r' & Gr' & _ & _ & _ & Vr).
  rewrite Gr in Gr'. injection Gr' as <-.
  cbn [set_elapsed st_prm] in Hcur. rewrite G6 in Hcur. injection Hcur as <-.
  assert (Vr' : r_val r = elem v [fst (fst i); snd (fst i); snd i]).
  { apply Vr. rewrite n0_R. cbn. ring. }
  assert (Hx : In (Drawing (Place name Init "init_val") n o) (drawings d (rp_counts rep))).
  { unfold drawings. apply in_flat_map. exists (name, PDeg p). split; [now apply dget_In|]. apply in_flat_map. exists (Init, lm_vars (dp_init p)).
    split; [right; apply in_or_app; right; right; left; reflexivity|]. apply in_map_iff. exists ("init_val"%string, o). cbn [fst snd]. rewrite G1.
    split; [reflexivity|now apply dget_In]. }
  destruct (sample_shape (Om := unit) d (rp_counts rep) C L (fun _ => w) Sd (fun _ => ex_intro _ _ (ex_intro _ _ B1)) _ tt Hx)
    as (st' & cnt' & w3 & a & Ea & Fa & Sa & La).
  { intros _. exists p. auto. }
  rewrite B1 in Ea. injection Ea as <- <- <-. cbn [dr_place dr_count] in *.
  unfold found in Fa. cbn [pl_prm pl_part] in Fa. rewrite G2, G6 in Fa. destruct v as [| |a'|]; try discriminate. cbn [arr] in Fa. injection Fa as ->.
  unfold first_reading. rewrite B9, concat_app, <- app_assoc. cbn [concat]. rewrite find_app_none.
  2:{ intros x Hx'. apply in_concat in Hx' as (h & Hh & Hx'). destruct (Oth h Hh) as (b & (_ & Sb) & Nb). unfold is_row.
      destruct (Sb x Hx') as (-> & _). cbn [fst] in Nb. destruct (String.eqb_spec (fst b) name); [contradiction|reflexivity]. }
  rewrite <- app_assoc. rewrite (find_app_some _ _ _ _ Fr). f_equal. rewrite Vr'. unfold state_sample, found. cbn [fst dr_place dr_count pl_prm pl_part].
  rewrite G2, G6. cbn [arr at3 elem]. symmetry. apply nth_error_nth. apply (flat_get a L C n); auto. lia.
Qed.

Lemma first_reading_moments {Om} (E : (Om -> R) -> R) (HE : expectation E) e d m l2 counts C L (w : Om -> world) :
  sampled_device d counts -> regular d -> (forall s, In s (SMeas m :: l2) -> step_wf s) ->
  (forall q p, dget d q = Some (PDeg p) -> ~ In "init"%string (dkeys (dp_mechs p)) /\ ~ In "cond"%string (dkeys (dp_mechs p))) ->
  (forall om, exists st rep w', simulate e d (SMeas m :: l2) C L None (w om) = (Ok (st, rep), w') /\ rp_counts rep = counts) ->
  let plan := drawings_plan (drawings d counts) C L in distributed E plan w -> independent E plan w ->
  let reading := fun name i om => sim_reading (fst (simulate e d (SMeas m :: l2) C L None (w om))) name i in
  forall name k p o name' k' p' o' i j, In (name, k) (ms_counts m) -> In (name', k') (ms_counts m) ->
  plainly_read e d name p o -> plainly_read e d name' p' o' -> inside k C L i -> inside k' C L j ->
  E (reading name i) = var_mean o /\ cov E (reading name i) (reading name' j) = if String.eqb name name' then var_cov o i j else 0.
Proof.
  intros Sd Rg Ws Pn Runs plan Ds Ki reading name k p o name' k' p' o' i j Hn Hn' Pr Pr' Hi Hj.
  assert (Runs' : forall om, exists r w', dev_init_state d counts C L (w om) = (Ok r, w')).
  { intros om. destruct (Runs om) as (st & rep & w' & Es & Er). subst counts.
    destruct (first_reading_init e d m l2 C L _ _ _ _ name k p o i Sd Rg Ws Pn Es Pr Hn Hi) as (n & st0 & w0 & _ & _ & B & _). eauto. }
  assert (Val : forall name k p o i, In (name, k) (ms_counts m) -> plainly_read e d name p o -> inside k C L i ->
    forall n, dget counts name = Some n -> forall om,
    reading name i om = state_sample C (fst (dev_init_state d counts C L (w om))) (Drawing (Place name Init "init_val") n o) i).
  { clear - Sd Rg Ws Pn Runs. intros name k p o i Hn Pr Hi n Gn om. destruct (Runs om) as (st & rep & w' & Es & Er). subst counts.
    destruct (first_reading_init e d m l2 C L _ _ _ _ name k p o i Sd Rg Ws Pn Es Pr Hn Hi) as (n' & st0 & w0 & Gn' & _ & B & Fr).
    rewrite Gn in Gn'. injection Gn' as <-. unfold reading, sim_reading. rewrite Es. cbn [fst snd]. rewrite Fr, B. reflexivity. }
  assert (Cnt : forall om : Om, forall name k p o i, In (name, k) (ms_counts m) -> plainly_read e d name p o -> inside k C L i ->
    exists n, dget counts name = Some n /\ inside n C L i /\ In (Drawing (Place name Init "init_val") n o) (drawings d counts)).
  { clear - Sd Rg Ws Pn Runs. intros om name k p o i Hn Pr Hi. destruct (Runs om) as (st & rep & w' & Es & Er). subst counts.
    destruct (first_reading_init e d m l2 C L _ _ _ _ name k p o i Sd Rg Ws Pn Es Pr Hn Hi) as (n & st0 & w0 & Gn & Hk & _).
    exists n. split; [exact Gn|]. destruct Hi as (Hl & Hc & Hd). split; [repeat split; try assumption; lia|].
    unfold drawings. apply in_flat_map. exists (name, PDeg p). split; [apply dget_In; apply (pr_prm _ _ _ _ _ Pr)|].
    apply in_flat_map. exists (Init, lm_vars (dp_init p)). split; [right; apply in_or_app; right; right; left; reflexivity|].
    apply in_map_iff. exists ("init_val"%string, o). cbn [fst snd]. rewrite Gn. split; [reflexivity|]. apply dget_In. apply (pr_var _ _ _ _ _ Pr). }
  assert (inhabited Om) as [om].
  { destruct (classic (inhabited Om)) as [K|K]; [exact K|]. exfalso.
    assert (Z : 1 = 0); [|lra]. rewrite <- (ex_one E HE). rewrite (ex_ext E HE (fun _ => 1) (fun _ => 0)) by (intros o0; exfalso; apply K; constructor; exact o0).
    apply (E_zero E HE). }
  destruct (Cnt om name k p o i Hn Pr Hi) as (n & Gn & In1 & Dx). destruct (Cnt om name' k' p' o' j Hn' Pr' Hj) as (n' & Gn' & In2 & Dy).
  rewrite (E_ext E HE _ _ (Val name k p o i Hn Pr Hi n Gn)).
  rewrite (cov_ext E HE _ _ _ _ (Val name k p o i Hn Pr Hi n Gn) (Val name' k' p' o' j Hn' Pr' Hj n' Gn')).
  destruct (state_moments E HE d counts C L w Sd Ds Ki Runs' _ _ i j Dx Dy) as [M1 M2]; [| |exact In1|exact In2|].
  - intros _. exists p. split; [apply (pr_prm _ _ _ _ _ Pr)|apply (pr_init _ _ _ _ _ Pr)].
  - intros _. exists p'. split; [apply (pr_prm _ _ _ _ _ Pr')|apply (pr_init _ _ _ _ _ Pr')].
  - split; [exact M1|]. etransitivity; [exact M2|]. cbn [dr_place dr_var]. unfold place_eqb. cbn [pl_prm pl_part pl_var part_eqb].
    rewrite String.eqb_refl, !andb_true_r. reflexivity.
Qed.
End First.
