(** Means, variances and correlations of conditions and readings. *)
From Coq Require Import Reals Qreals List Lia Lra Bool.
From Coq.micromega Require RMicromega.
From Flocq Require Import Core.
From Verif Require Import M_Base M_Num M_NumR M_Nd M_RandVar M_Latent M_Env S_Latent L_Latent S_Moments L_Moments L_Moments2.
Import ListNotations.
Open Scope R_scope.

Section Plans.
Context {Rg : Rng R} {Om : Type}.

Lemma gen_env_values (w : Om -> world) o s base D C L :
  em_rep o s -> acceptable (et_dev s) -> acceptable (et_chp s) -> acceptable (et_bat s) ->
  let t := et_type s in let plan := env_plan s D C L in
  let off2 := length (layer_plan t (et_bat s) 1) in let off3 := (off2 + length (layer_plan t (et_chp s) (L * C)))%nat in
  forall om, exists a, fst (gen_env o base D C L (w om)) = Ok a /\ nshape a = [L; C; D] /\ length (ndata a) = (L * C * D)%nat /\
    forall i, inside D C L i ->
    let xd := value plan w (layer_dist t (et_dev s)) off3 ((fst (fst i) * C + snd (fst i)) * D + snd i) om in
    let xc := value plan w (layer_dist t (et_chp s)) off2 (fst (fst i) * C + snd (fst i)) om in
    let xb := value plan w (layer_dist t (et_bat s)) 0 0 om in
    at3 C D (Ok a) i = S_Latent.combine t (S_Latent.combine t (S_Latent.combine t base xb) xc) xd.
Proof.
  intros Kr Ad Ac Al t plan off2 off3 om.
  pose proof (gen_env_main o s base D C L (w om) Kr) as K. destruct Kr as (_ & _ & _ & Sd & Sc & Sl).
  replace (C * L)%nat with (L * C)%nat in K by lia. replace (D * (L * C))%nat with (L * C * D)%nat in K by lia.
  destruct (layer_sample _ _ _ _ 1 (w om) Sl Al) as (w1 & E1 & W1). rewrite E1 in K.
  destruct (layer_sample _ _ _ _ (L * C) w1 Sc Ac) as (w2 & E2 & W2). rewrite E2 in K.
  destruct (layer_sample _ _ _ _ (L * C * D) w2 Sd Ad) as (w3 & E3 & W3). rewrite E3 in K.
  destruct K as (a & Ea & Hs & Hl & xb & Nb & K). exists a. rewrite Ea. split; [reflexivity|]. split; [exact Hs|]. split; [exact Hl|].
  intros [[l c] d] (Hl' & Hc & Hd). cbn [fst snd] in *. destruct (K l c d Hl' Hc Hd) as (xd & xc & Nd & Nc & Na).
  pose proof (idx2_lt L C l c Hl' Hc) as I2. pose proof (idx3_lt L C D l c d Hl' Hc Hd) as I3.
  assert (Nl : nth_error (layer_values (et_type s) (et_bat s) 1 (w om)) 0 = Some xb) by (rewrite Nb; reflexivity).
  rewrite (layer_value w (et_type s) (et_bat s) 1 [] (layer_plan t (et_chp s) (L * C) ++ layer_plan t (et_dev s) (L * C * D)) plan 0 om (w om)) in Nl;
    [|reflexivity|lia|reflexivity].
  rewrite (layer_value w (et_type s) (et_chp s) (L * C) (layer_plan t (et_bat s) 1) (layer_plan t (et_dev s) (L * C * D)) plan (l * C + c) om w1) in Nc;
    [|reflexivity|exact I2|exact W1].
  rewrite (layer_value w (et_type s) (et_dev s) (L * C * D) (layer_plan t (et_bat s) 1 ++ layer_plan t (et_chp s) (L * C)) [] plan ((l * C + c) * D + d) om w2) in Nd.
  2:{ unfold plan, env_plan. rewrite app_nil_r, <- app_assoc. reflexivity. }
  2:{ exact I3. }
  2:{ intros g. rewrite W2. destruct (tape_ext (layer_plan t (et_chp s) (L * C)) w1 _ W1) as [_ X]. rewrite X, after_app. reflexivity. }
  rewrite app_length in Nd. cbn [length] in Nl. injection Nl as <-. injection Nc as <-. injection Nd as <-.
  unfold at3. cbn [fst snd]. erewrite nth_error_nth by exact Na. reflexivity.
Qed.

Section Condition.
Variables (E : (Om -> R) -> R) (HE : expectation E) (w : Om -> world) (o : emdl R) (s : etold R) (base : R) (D C L : nat).
Hypotheses (Kr : em_rep o s) (Ad : acceptable (et_dev s)) (Ac : acceptable (et_chp s)) (Al : acceptable (et_bat s)).
Let sample_of (i : nat * nat * nat) (om : Om) : R := at3 C D (fst (gen_env o base D C L (w om))) i.

Lemma cond_array : gives_array (fun om => fst (gen_env o base D C L (w om))) D C L.
Proof. intros om. destruct (gen_env_values w o s base D C L Kr Ad Ac Al om) as (a & Ea & Hs & Hl & _). eauto. Qed.
Lemma cond_placed : let t := et_type s in
  placed (env_plan s D C L) (layer_dist t (et_bat s)) 0 1 /\
  placed (env_plan s D C L) (layer_dist t (et_chp s)) (length (layer_plan t (et_bat s) 1)) (L * C) /\
  placed (env_plan s D C L) (layer_dist t (et_dev s)) (length (layer_plan t (et_bat s) 1) + length (layer_plan t (et_chp s) (L * C))) (L * C * D).
Proof.
  cbn beta zeta. split; [|split].
  - eapply (placed_layer _ _ _ [] _ _ Al). reflexivity.
  - eapply (placed_layer _ _ _ (layer_plan (et_type s) (et_bat s) 1) _ _ Ac). reflexivity.
  - rewrite <- app_length. apply (placed_layer _ _ _ (layer_plan (et_type s) (et_bat s) 1 ++ layer_plan (et_type s) (et_chp s) (L * C)) [] _ Ad).
    unfold env_plan. now rewrite app_nil_r, app_assoc.
Qed.

Lemma cond_offset : et_type s = Offset -> distributed E (env_plan s D C L) w -> uncorrelated E (env_plan s D C L) w ->
  forall i j, inside D C L i -> inside D C L j ->
  E (sample_of i) = base + mean (layer_dist Offset (et_bat s)) + mean (layer_dist Offset (et_chp s)) + mean (layer_dist Offset (et_dev s)) /\
  cov E (sample_of i) (sample_of j) =
    variance (layer_dist Offset (et_bat s)) + when (same_chip i j) (variance (layer_dist Offset (et_chp s))) +
    when (same_device i j) (variance (layer_dist Offset (et_dev s))).
Proof.
  intros Et Kd Ku i j (Hl & Hc & Hd) (Hl' & Hc' & Hd').
  destruct cond_placed as (Pl & Pc & Pd). cbn beta zeta in *.
  pose proof (sum_moments E HE (env_plan s D C L) w _ _ _ _ _ _ _ _ _ Pl Pc Pd) as K.
  specialize (K ltac:(rewrite <- layer_plan_length; lia) ltac:(rewrite <- layer_plan_length; lia)).
  specialize (K base
    0%nat (fst (fst i) * C + snd (fst i))%nat ((fst (fst i) * C + snd (fst i)) * D + snd i)%nat
    0%nat (fst (fst j) * C + snd (fst j))%nat ((fst (fst j) * C + snd (fst j)) * D + snd j)%nat Kd Ku
    Nat.lt_0_1 (idx2_lt _ _ _ _ Hl Hc) (idx3_lt _ _ _ _ _ _ Hl Hc Hd) Nat.lt_0_1 (idx2_lt _ _ _ _ Hl' Hc') (idx3_lt _ _ _ _ _ _ Hl' Hc' Hd')).
  cbn beta zeta in K. rewrite same_chip_idx, same_device_idx in K by assumption. rewrite Et in K.
  assert (V : forall i, inside D C L i -> forall om, sample_of i om = base +
     (value (env_plan s D C L) w (layer_dist Offset (et_bat s)) 0 0 om +
      (value (env_plan s D C L) w (layer_dist Offset (et_chp s)) (length (layer_plan Offset (et_bat s) 1)) (fst (fst i) * C + snd (fst i)) om +
       value (env_plan s D C L) w (layer_dist Offset (et_dev s)) (length (layer_plan Offset (et_bat s) 1) + length (layer_plan Offset (et_chp s) (L * C)))
         ((fst (fst i) * C + snd (fst i)) * D + snd i) om))).
  { intros k Hk om. unfold sample_of. destruct (gen_env_values w o s base D C L Kr Ad Ac Al om) as (a & Ea & _ & _ & Va).
    rewrite Ea, (Va k Hk). cbn beta zeta. rewrite Et. cbn [S_Latent.combine nadd ROps]. ring. }
  destruct K as [K1 K2]. split.
  - rewrite (E_ext E HE _ _ (V i (conj Hl (conj Hc Hd)))). exact K1.
  - rewrite (cov_ext E HE _ _ _ _ (V i (conj Hl (conj Hc Hd))) (V j (conj Hl' (conj Hc' Hd')))). exact K2.
Qed.
Lemma cond_scaling : et_type s = Scaling -> distributed E (env_plan s D C L) w -> independent E (env_plan s D C L) w ->
  forall i j, inside D C L i -> inside D C L j ->
  E (sample_of i) = base * mean (layer_dist Scaling (et_bat s)) * mean (layer_dist Scaling (et_chp s)) * mean (layer_dist Scaling (et_dev s)) /\
  E (fun om => sample_of i om * sample_of j om) =
    base ^ 2 * second (layer_dist Scaling (et_bat s)) * pair_moment (same_chip i j) (layer_dist Scaling (et_chp s)) *
    pair_moment (same_device i j) (layer_dist Scaling (et_dev s)).
Proof.
  intros Et Kd Ku i j (Hl & Hc & Hd) (Hl' & Hc' & Hd').
  destruct cond_placed as (Pl & Pc & Pd). cbn beta zeta in *.
  pose proof (product_moments E HE (env_plan s D C L) w _ _ _ _ _ _ _ _ _ Pl Pc Pd) as K.
  specialize (K ltac:(rewrite <- layer_plan_length; lia) ltac:(rewrite <- layer_plan_length; lia)).
  specialize (K base
    0%nat (fst (fst i) * C + snd (fst i))%nat ((fst (fst i) * C + snd (fst i)) * D + snd i)%nat
    0%nat (fst (fst j) * C + snd (fst j))%nat ((fst (fst j) * C + snd (fst j)) * D + snd j)%nat Kd Ku
    Nat.lt_0_1 (idx2_lt _ _ _ _ Hl Hc) (idx3_lt _ _ _ _ _ _ Hl Hc Hd) Nat.lt_0_1 (idx2_lt _ _ _ _ Hl' Hc') (idx3_lt _ _ _ _ _ _ Hl' Hc' Hd')).
  cbn beta zeta in K. rewrite same_chip_idx, same_device_idx in K by assumption. rewrite Et in K.
  assert (V : forall i, inside D C L i -> forall om, sample_of i om = base *
     (value (env_plan s D C L) w (layer_dist Scaling (et_bat s)) 0 0 om *
      (value (env_plan s D C L) w (layer_dist Scaling (et_chp s)) (length (layer_plan Scaling (et_bat s) 1)) (fst (fst i) * C + snd (fst i)) om *
       value (env_plan s D C L) w (layer_dist Scaling (et_dev s)) (length (layer_plan Scaling (et_bat s) 1) + length (layer_plan Scaling (et_chp s) (L * C)))
         ((fst (fst i) * C + snd (fst i)) * D + snd i) om))).
  { intros k Hk om. unfold sample_of. destruct (gen_env_values w o s base D C L Kr Ad Ac Al om) as (a & Ea & _ & _ & Va).
    rewrite Ea, (Va k Hk). cbn beta zeta. rewrite Et. cbn [S_Latent.combine nmul ROps]. ring. }
  destruct K as [K1 K2]. split.
  - rewrite (E_ext E HE _ _ (V i (conj Hl (conj Hc Hd)))). exact K1.
  - etransitivity; [|exact K2]. apply (E_ext E HE). intros om. now rewrite (V i (conj Hl (conj Hc Hd))), (V j (conj Hl' (conj Hc' Hd'))).
Qed.
End Condition.

(** ** Readings *)
Lemma zip_add_nth (a b : list R) i : (i < length a)%nat -> length b = length a -> nth i (zip_add a b) 0 = nth i a 0 + nth i b 0.
Proof.
  revert b i. induction a as [|x a IH]; intros [|y b] i Hi Hb; cbn [length] in *; try lia. cbn [zip_add].
  destruct i; cbn [nth]; [reflexivity|]. apply IH; lia.
Qed.
Section Reading.
Variables (E : (Om -> R) -> R) (HE : expectation E) (w : Om -> world) (nm : option string) (r : rv R) (n : nat) (vals : Om -> list R).
Hypotheses (Ar : acceptable (Some r)) (Hn : forall om, length (vals om) = n).
Let plan := layer_plan Offset (Some r) n.
Let reading (i : nat) (om : Om) : R :=
  match fst (measure (Instm nm None (Some r) None) (vals om) (w om)) with Ok ys => nth i ys 0 | Err _ => 0 end.
Let true_value (i : nat) (om : Om) : R := nth i (vals om) 0.

Lemma reading_values om : exists ys, fst (measure (Instm nm None (Some r) None) (vals om) (w om)) = Ok ys /\ length ys = n /\
  forall i, (i < n)%nat -> nth i ys 0 = true_value i om + value plan w (rv_dist r) 0 i om.
Proof.
  destruct (layer_sample Offset r true (Some r) n (w om) (conj eq_refl (conj eq_refl eq_refl)) Ar) as (w' & Es & _).
  assert (Hv : length (layer_values Offset (Some r) n (w om)) = n).
  { unfold layer_values. destruct (request (layer_dist Offset (Some r))) eqn:Er; [|apply repeat_length].
    rewrite tape_length, layer_plan_length. unfold size. now rewrite Er. }
  exists (zip_add (vals om) (layer_values Offset (Some r) n (w om))). split; [|split].
  - unfold measure. cbn [in_err in_prec in_range]. unfold bind. rewrite Hn, Es. reflexivity.
  - assert (J : forall a b : list R, length b = length a -> length (zip_add a b) = length a).
    { induction a as [|x a IH]; intros [|y b] Hb; cbn [length zip_add] in *; try lia. rewrite IH; lia. }
    rewrite J; [apply Hn|]. now rewrite Hn.
  - intros i Hi. rewrite zip_add_nth; [|rewrite Hn; exact Hi|now rewrite Hn]. unfold true_value. f_equal. cbn [nadd ROps].
    apply nth_error_nth. apply (layer_value w Offset (Some r) n [] [] plan i om (w om)); [now rewrite app_nil_r|exact Hi|reflexivity].
Qed.
Lemma reading_moments : distributed E plan w -> uncorrelated E plan w ->
  (forall i k, (i < n)%nat -> (k < length plan)%nat -> cov E (true_value i) (draw plan w k) = 0) ->
  (forall om, exists ys, fst (measure (Instm nm None (Some r) None) (vals om) (w om)) = Ok ys /\ length ys = n) /\
  forall i j, (i < n)%nat -> (j < n)%nat ->
  E (reading i) = E (true_value i) + mean (rv_dist r) /\
  cov E (reading i) (reading j) = cov E (true_value i) (true_value j) + when (Nat.eqb i j) (variance (rv_dist r)).
Proof.
  intros Kd Ku Kt. split.
  { intros om. destruct (reading_values om) as (ys & A & B & _). eauto. }
  intros i j Hi Hj.
  assert (V : forall k, (k < n)%nat -> forall om, reading k om = true_value k om + value plan w (rv_dist r) 0 k om).
  { intros k Hk om. unfold reading. destruct (reading_values om) as (ys & -> & _ & B). now apply B. }
  assert (P : placed plan (rv_dist r) 0 n) by (apply (placed_layer Offset (Some r) n [] [] plan Ar); now rewrite app_nil_r).
  assert (Z : forall a b, (a < n)%nat -> (b < n)%nat -> cov E (true_value a) (value plan w (rv_dist r) 0 b) = 0).
  { intros a b Ha Hb. unfold value. destruct P as [_ P]. destruct (request (rv_dist r)) as [p|]; [|apply (cov_const_r E HE)].
    destruct (P p eq_refl) as [P' _]. apply Kt; lia. }
  split.
  - rewrite (E_ext E HE _ _ (V i Hi)), (E_plus E HE). f_equal. now apply (mean_value E HE plan w _ _ n).
  - rewrite (cov_ext E HE _ _ _ _ (V i Hi) (V j Hj)), (cov_plus_l E HE), !(cov_plus_r E HE).
    rewrite (cov_value E HE plan w _ _ n) by assumption. rewrite (cov_sym E HE (value _ _ _ _ _) (true_value j)), !Z by assumption. ring.
Qed.
End Reading.
End Plans.
