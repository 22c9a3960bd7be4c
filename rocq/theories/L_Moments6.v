(** Means, variances and correlations of the values of a generated state: all places. *)
From Coq Require Import Reals Qreals List Lia Lra Bool String FunctionalExtensionality.
From Verif Require Import M_Base M_Num M_NumR M_Nd M_RandVar M_Latent M_Time M_TestSpec M_Device M_Env S_Latent S_Sim
  L_Base L_Latent L_Device L_Sim L_Sim3 S_Moments L_Moments L_Moments2 S_Moments2 L_Moments4 L_Moments5.
Import ListNotations.
Open Scope R_scope.

Lemma part_eqb_eq a b : part_eqb a b = true <-> a = b.
Proof.
  destruct a as [| |x|], b as [| |y|]; cbn; split; intros K; try congruence; try discriminate.
  - apply String.eqb_eq in K. congruence.
  - apply String.eqb_eq. congruence.
Qed.
Lemma place_eqb_eq a b : place_eqb a b = true <-> a = b.
Proof.
  unfold place_eqb. rewrite !andb_true_iff, !String.eqb_eq, part_eqb_eq. destruct a, b; cbn. split; [intros ((-> & ->) & ->)|intros K; injection K]; auto.
Qed.

Lemma nodup_flat {A B K} (key : A -> K) (f : A -> list B) (proj : B -> K) l : NoDup (map key l) ->
  (forall a, In a l -> NoDup (f a)) -> (forall a b, In a l -> In b (f a) -> proj b = key a) -> NoDup (flat_map f l).
Proof.
  induction l as [|a l IH]; intros N F P; cbn [flat_map]; [constructor|]. cbn [map] in N. inversion N as [|? ? Na N']; subst.
  assert (D : forall b, In b (f a) -> ~ In b (flat_map f l)).
  { intros b Hb Hl. apply in_flat_map in Hl as (a' & Ha' & Hb'). apply Na. rewrite <- (P a b (or_introl eq_refl) Hb).
    rewrite (P a' b (or_intror Ha') Hb'). now apply in_map. }
  specialize (F a (or_introl eq_refl)) as Fa. specialize (IH N' (fun x Hx => F x (or_intror Hx)) (fun x b Hx => P x b (or_intror Hx))).
  clear - Fa IH D. revert Fa D. generalize (f a) as u. induction u as [|b u IHu]; intros Fa D; cbn [app]; [exact IH|].
  inversion Fa; subst. constructor.
  - rewrite in_app_iff. intros [K|K]; [contradiction|]. exact (D b (or_introl eq_refl) K).
  - apply IHu; [assumption|]. intros c Hc. apply D. now right.
Qed.
Lemma nodup_map_inj {A B} (f : A -> B) l : NoDup l -> (forall a b, In a l -> In b l -> f a = f b -> a = b) -> NoDup (map f l).
Proof.
  induction l as [|a l IH]; intros N I; cbn [map]; [constructor|]. inversion N; subst. constructor.
  - intros K. apply in_map_iff in K as (b & Eb & Hb). assert (b = a) as -> by (apply I; [right; exact Hb|left; reflexivity|exact Eb]). contradiction.
  - apply IH; [assumption|]. intros x y Hx Hy. apply I; now right.
Qed.
Lemma map_flat_map {A B D} (h : B -> D) (f : A -> list B) l : map h (flat_map f l) = flat_map (fun a => map h (f a)) l.
Proof. induction l as [|a l IH]; cbn [flat_map map]; [reflexivity|]. rewrite map_app. now rewrite IH. Qed.

Lemma parts_wf q : distinct_names q -> NoDup (map fst (parts q)) /\ forall pv, In pv (parts q) -> dwf (snd pv).
Proof.
  destruct q as [p|c]; cbn [parts distinct_names].
  - intros (Wm & _ & Wc & Wo & Wi & Wv & _). split.
    + cbn [map fst]. rewrite map_app, map_map. cbn [map fst]. constructor.
      * rewrite in_app_iff. intros [K|[K|[K|[]]]]; try discriminate. apply in_map_iff in K as (? & K & _). discriminate.
      * apply nodup_two.
        -- unfold dwf, dkeys in Wm. rewrite <- (map_map fst Mech). apply nodup_map_inj; [exact Wm|]. congruence.
        -- repeat constructor; cbn; intuition discriminate.
        -- intros k K K'. apply in_map_iff in K as (? & <- & _). destruct K' as [K'|[K'|[]]]; discriminate.
    + intros pv [<-|K]; [exact Wc|]. apply in_app_or in K as [K|[<-|[<-|[]]]]; [|exact Wo|exact Wi].
      apply in_map_iff in K as ([nm m] & <- & K). exact (Wv _ _ K).
  - intros W. split; [repeat constructor; cbn; tauto|]. intros pv [<-|[]]. exact W.
Qed.
Lemma drawings_nodup {G : Rng R} d counts : sampled_device d counts -> NoDup (map dr_place (drawings d counts)).
Proof.
  intros [W Dn _ _]. unfold drawings. rewrite map_flat_map. apply (nodup_flat fst _ pl_prm); [exact W| |].
  - intros [k q] Hin. cbn [fst snd]. destruct (parts_wf q (Dn _ _ Hin)) as [N Wv]. rewrite map_flat_map.
    apply (nodup_flat fst _ pl_part); [exact N| |].
    + intros pv Hp. rewrite map_map. cbn [dr_place]. rewrite <- (map_map fst (fun v => Place k (fst pv) v)).
      apply nodup_map_inj; [exact (Wv _ Hp)|congruence].
    + intros pv pl Hp Hpl. rewrite map_map in Hpl. apply in_map_iff in Hpl as (v & <- & _). reflexivity.
  - intros [k q] pl Hin Hpl. cbn [fst snd] in *. rewrite map_flat_map in Hpl. apply in_flat_map in Hpl as (pv & _ & Hpl).
    rewrite map_map in Hpl. apply in_map_iff in Hpl as (v & <- & _). reflexivity.
Qed.
Lemma same_place {G : Rng R} d counts x y : sampled_device d counts -> In x (drawings d counts) -> In y (drawings d counts) ->
  dr_place x = dr_place y -> x = y.
Proof.
  intros S Hx Hy K. pose proof (drawings_nodup d counts S) as N. revert Hx Hy N. generalize (drawings d counts) as l.
  induction l as [|z l IH]; intros Hx Hy N; [destruct Hx|]. cbn [map] in N. inversion N as [|? ? Nz N']; subst.
  destruct Hx as [->|Hx], Hy as [->|Hy]; auto.
  - exfalso. apply Nz. rewrite K. now apply in_map.
  - exfalso. apply Nz. rewrite <- K. now apply in_map.
Qed.

Section State.
Context {G : Rng R} {Om : Type} (E : (Om -> R) -> R) (HE : expectation E).
Variables (d : device R) (counts : dict nat) (C L : nat) (w : Om -> world).
Hypothesis Sd : sampled_device d counts.
Let plan := drawings_plan (drawings d counts) C L.
Hypotheses (Ds : distributed E plan w) (Ki : independent E plan w).
Hypothesis Runs : forall om, exists r w', dev_init_state d counts C L (w om) = (Ok r, w').
Let sample (x : drawing) (i : nat * nat * nat) (om : Om) : R := state_sample C (fst (dev_init_state d counts C L (w om))) x i.

Lemma sample_split x pre post i om : drawings d counts = pre ++ x :: post -> in_state d (dr_place x) ->
  sample x i om = at3 C (dr_count x) (fst (gen_latent (dr_var x) (dr_count x) C L (after (drawings_plan pre C L) (w om)))) i.
Proof using Sd Runs.
  intros Es Hx. destruct (Runs om) as ([st cnt] & w' & Er). unfold sample, state_sample. rewrite Er. cbn [fst].
  destruct (dev_init_plan d counts C L _ _ _ _ Sd Er) as (_ & K). destruct (K _ _ _ Es) as (a & Ea & Ef). rewrite (Ef Hx), Ea. reflexivity.
Qed.
Lemma sample_shape x om : In x (drawings d counts) -> in_state d (dr_place x) ->
  exists st cnt w' a, dev_init_state d counts C L (w om) = (Ok (st, cnt), w') /\ found st (dr_place x) = Some a /\
    nshape a = [L; C; dr_count x] /\ length (ndata a) = (L * C * dr_count x)%nat.
Proof using Sd Runs.
  intros Hx Hi. destruct (Runs om) as ([st cnt] & w' & Er). destruct (in_split _ _ Hx) as (pre & post & Es).
  destruct (dev_init_plan d counts C L _ _ _ _ Sd Er) as (_ & K). destruct (K _ _ _ Es) as (a & Ea & Ef).
  exists st, cnt, w', a. split; [exact Er|]. split; [exact (Ef Hi)|].
  destruct (sd_vars _ _ Sd x Hx) as (Ht & Al & Ac & Ad). destruct (lv_op (dr_var x)) as [t|] eqn:Eo; [|contradiction].
  destruct (latent_array (fun _ : Om => after (drawings_plan pre C L) (w om)) (flagged (dr_var x) t) (as_told (dr_var x) t) (dr_count x) C L
    (flagged_rep _ _) Ad Ac Al om) as (a' & Ea' & Sh).
  cbv beta in Ea'. rewrite flagged_gen in Ea' by exact Eo. rewrite Ea in Ea'. injection Ea' as <-. exact Sh.
Qed.

Lemma plan_split pre x post : drawings d counts = pre ++ x :: post ->
  plan = drawings_plan pre C L ++ object_plan (dr_var x) (dr_count x) C L ++ drawings_plan post C L.
Proof. intros Es. unfold plan. rewrite Es. unfold drawings_plan. rewrite flat_map_app. reflexivity. Qed.

Lemma apart pre x mid y post i j : drawings d counts = pre ++ x :: mid ++ y :: post ->
  in_state d (dr_place x) -> in_state d (dr_place y) -> inside (dr_count x) C L i -> inside (dr_count y) C L j ->
  cov E (sample x i) (sample y j) = 0.
Proof.
  intros Es Hx Hy Hi Hj.
  assert (Es2 : drawings d counts = (pre ++ x :: mid) ++ y :: post) by (rewrite Es, <- app_assoc; reflexivity).
  rewrite (cov_ext E HE _ (fun om => at3 C (dr_count x) (fst (gen_latent (dr_var x) (dr_count x) C L (after (drawings_plan pre C L) (w om)))) i)
     _ (fun om => at3 C (dr_count y) (fst (gen_latent (dr_var y) (dr_count y) C L (after (drawings_plan (pre ++ x :: mid) C L) (w om)))) j)).
  2:{ intros om. now apply (sample_split x pre _ i om Es). }
  2:{ intros om. now apply (sample_split y _ _ j om Es2). }
  assert (Hlen : (length (drawings_plan (pre ++ x :: mid) C L) + length (object_plan (dr_var y) (dr_count y) C L) <= length plan)%nat).
  { rewrite (plan_split _ _ _ Es2), !app_length. lia. }
  assert (Hord : (length (drawings_plan pre C L) + length (object_plan (dr_var x) (dr_count x) C L) <= length (drawings_plan (pre ++ x :: mid) C L))%nat).
  { unfold drawings_plan. rewrite flat_map_app. cbn [flat_map]. rewrite !app_length. lia. }
  eapply (span_cov E HE plan w); [exact Ki|exact Hord|lia|exact Hlen| |].
  - eapply variable_span; [exact (plan_split _ _ _ Es)|apply (sd_vars _ _ Sd); rewrite Es; apply in_or_app; right; left; reflexivity|exact Hi].
  - eapply variable_span; [exact (plan_split _ _ _ Es2)|apply (sd_vars _ _ Sd); rewrite Es2; apply in_or_app; right; left; reflexivity|exact Hj].
Qed.

Lemma state_moments x y i j : In x (drawings d counts) -> In y (drawings d counts) -> in_state d (dr_place x) -> in_state d (dr_place y) ->
  inside (dr_count x) C L i -> inside (dr_count y) C L j ->
  E (sample x i) = var_mean (dr_var x) /\
  cov E (sample x i) (sample y j) = if place_eqb (dr_place x) (dr_place y) then var_cov (dr_var x) i j else 0.
Proof.
  intros Hx Hy Ix Iy Hi Hj. destruct (in_split _ _ Hx) as (pre & post & Es).
  assert (Sx : samplable (dr_var x)) by (now apply (sd_vars _ _ Sd)).
  assert (Eq : forall k, (fun om => sample x k om) =
     fun om => at3 C (dr_count x) (fst (gen_latent (dr_var x) (dr_count x) C L (after (drawings_plan pre C L) (w om)))) k).
  { intros k. apply functional_extensionality. intros om. now apply (sample_split x pre post k om Es). }
  split.
  - change (E (fun om => sample x i om) = var_mean (dr_var x)). rewrite Eq.
    exact (proj1 (variable_moments E HE (dr_var x) _ C L _ _ plan w (plan_split _ _ _ Es) Sx Ds Ki i i Hi Hi)).
  - destruct (place_eqb (dr_place x) (dr_place y)) eqn:Ep.
    + apply place_eqb_eq in Ep. apply (same_place d counts x y Sd Hx Hy) in Ep. subst y.
      change (cov E (fun om => sample x i om) (fun om => sample x j om) = var_cov (dr_var x) i j). rewrite !Eq.
      exact (proj2 (variable_moments E HE (dr_var x) _ C L _ _ plan w (plan_split _ _ _ Es) Sx Ds Ki i j Hi Hj)).
    + assert (Ny : y <> x). { intros ->. assert (place_eqb (dr_place x) (dr_place x) = true) by now apply place_eqb_eq. congruence. }
      rewrite Es in Hy. apply in_app_or in Hy as [Hy|[Hy|Hy]]; [|congruence|].
      * apply in_split in Hy as (p1 & p2 & ->). rewrite cov_sym by exact HE. eapply (apart p1 y p2 x post); auto. now rewrite Es, <- app_assoc.
      * apply in_split in Hy as (p1 & p2 & ->). eapply (apart pre x p1 y p2); auto.
Qed.
End State.
