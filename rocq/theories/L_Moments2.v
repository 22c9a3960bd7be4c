(** Means, variances and correlations of latent values, of conditions and of readings. *)
From Coq Require Import Reals Qreals List Lia Lra Bool.
From Coq.micromega Require RMicromega.
From Flocq Require Import Core.
From Verif Require Import M_Base M_Num M_NumR M_Nd M_RandVar M_Latent M_Env S_Latent L_Latent S_Moments L_Moments.
Import ListNotations.
Open Scope R_scope.

Lemma idx_eqb C l l' c c' : (c < C)%nat -> (c' < C)%nat -> Nat.eqb (l * C + c) (l' * C + c') = Nat.eqb l l' && Nat.eqb c c'.
Proof.
  intros Hc Hc'. destruct (Nat.eqb_spec (l * C + c) (l' * C + c')) as [K|K].
  - assert (l = l') as ->.
    { pose proof (Nat.div_add_l l C c ltac:(lia)) as A. pose proof (Nat.div_add_l l' C c' ltac:(lia)) as B.
      rewrite (Nat.div_small c C Hc) in A. rewrite (Nat.div_small c' C Hc') in B. rewrite K in A. lia. }
    rewrite Nat.eqb_refl. cbn. symmetry. apply Nat.eqb_eq. lia.
  - symmetry. apply andb_false_iff. destruct (Nat.eqb_spec l l'); [|auto]. destruct (Nat.eqb_spec c c'); [|auto]. subst. congruence.
Qed.
Lemma same_chip_idx C i j : (snd (fst i) < C)%nat -> (snd (fst j) < C)%nat ->
  Nat.eqb (fst (fst i) * C + snd (fst i)) (fst (fst j) * C + snd (fst j)) = same_chip i j.
Proof. intros. unfold same_chip, same_lot. now apply idx_eqb. Qed.
Lemma same_device_idx C D i j : (snd (fst i) < C)%nat -> (snd (fst j) < C)%nat -> (snd i < D)%nat -> (snd j < D)%nat ->
  Nat.eqb ((fst (fst i) * C + snd (fst i)) * D + snd i) ((fst (fst j) * C + snd (fst j)) * D + snd j) = same_device i j.
Proof. intros. unfold same_device. rewrite idx_eqb by assumption. now rewrite same_chip_idx. Qed.

Section Plans.
Context {Rg : Rng R} {Om : Type}.

Lemma layer_plan_length t given n : length (layer_plan t given n) = size (layer_dist t given) n.
Proof. unfold layer_plan, size. destruct (request _); [apply repeat_length|reflexivity]. Qed.
Lemma acceptable_proper t given : acceptable given -> proper (layer_dist t given).
Proof. intros K a b. destruct given as [r|]; cbn [layer_dist]; [|discriminate]. apply (K r eq_refl). Qed.
Lemma placed_layer t given n pre post plan : acceptable given -> plan = pre ++ layer_plan t given n ++ post ->
  placed plan (layer_dist t given) (length pre) n.
Proof.
  intros Ka ->. split; [now apply acceptable_proper|]. intros p Er. unfold layer_plan. rewrite Er.
  split; [rewrite !app_length, repeat_length; lia|]. intros i Hi.
  exists (layer_gen given). rewrite nth_error_app2 by lia. replace (length pre + i - length pre)%nat with i by lia.
  rewrite nth_error_app1 by (rewrite repeat_length; lia). now apply nth_error_repeat.
Qed.
Lemma layer_value (w : Om -> world) t given n pre post plan i o wk : plan = pre ++ layer_plan t given n ++ post -> (i < n)%nat ->
  (forall g, wk g = after pre (w o) g) ->
  nth_error (layer_values t given n wk) i = Some (value plan w (layer_dist t given) (length pre) i o).
Proof.
  intros -> Hi Kw. unfold layer_values, value. destruct (request (layer_dist t given)) as [p|] eqn:Er.
  - destruct (tape_ext (layer_plan t given n) wk (after pre (w o)) Kw) as [-> _].
    unfold draw. rewrite !tape_app. rewrite app_nth2; rewrite tape_length; [|lia].
    replace (length pre + i - length pre)%nat with i by lia.
    assert (K : (i < length (tape (layer_plan t given n) (after pre (w o))))%nat).
    { rewrite tape_length, layer_plan_length. unfold size. rewrite Er. exact Hi. }
    rewrite app_nth1 by exact K. now apply nth_error_nth'.
  - now apply nth_error_repeat.
Qed.

(** ** Latent variables *)
Lemma gen_latent_values (w : Om -> world) o s D C L :
  lv_rep o s -> acceptable (t_dev s) -> acceptable (t_chp s) -> acceptable (t_lot s) ->
  let t := t_type s in let plan := latent_plan s D C L in
  let off2 := length (layer_plan t (t_lot s) L) in let off3 := (off2 + length (layer_plan t (t_chp s) (L * C)))%nat in
  forall om, exists a, fst (gen_latent o D C L (w om)) = Ok a /\ nshape a = [L; C; D] /\ length (ndata a) = (L * C * D)%nat /\
    forall i, inside D C L i ->
    let xd := value plan w (layer_dist t (t_dev s)) off3 ((fst (fst i) * C + snd (fst i)) * D + snd i) om in
    let xc := value plan w (layer_dist t (t_chp s)) off2 (fst (fst i) * C + snd (fst i)) om in
    let xl := value plan w (layer_dist t (t_lot s)) 0 (fst (fst i)) om in
    at3 C D (Ok a) i = S_Latent.combine t (S_Latent.combine t (match t_deter s with Some v => S_Latent.combine t v xd | None => xd end) xc) xl.
Proof.
  intros Kr Ad Ac Al t plan off2 off3 om.
  pose proof (gen_latent_main o s D C L (w om) Kr) as K. destruct Kr as (_ & _ & _ & _ & Sd & Sc & Sl).
  destruct (layer_sample _ _ _ _ L (w om) Sl Al) as (w1 & E1 & W1). rewrite E1 in K.
  destruct (layer_sample _ _ _ _ (L * C) w1 Sc Ac) as (w2 & E2 & W2). rewrite E2 in K.
  destruct (layer_sample _ _ _ _ (L * C * D) w2 Sd Ad) as (w3 & E3 & W3). rewrite E3 in K.
  destruct K as (a & Ea & Hs & Hl & K). exists a. rewrite Ea. split; [reflexivity|]. split; [exact Hs|]. split; [exact Hl|].
  intros [[l c] d] (Hl' & Hc & Hd). cbn [fst snd] in *. destruct (K l c d Hl' Hc Hd) as (xd & xc & xl & Nd & Nc & Nl & Na).
  pose proof (idx2_lt L C l c Hl' Hc) as I2. pose proof (idx3_lt L C D l c d Hl' Hc Hd) as I3.
  rewrite (layer_value w (t_type s) (t_lot s) L [] (layer_plan t (t_chp s) (L * C) ++ layer_plan t (t_dev s) (L * C * D)) plan l om (w om)) in Nl;
    [|reflexivity|exact Hl'|reflexivity].
  rewrite (layer_value w (t_type s) (t_chp s) (L * C) (layer_plan t (t_lot s) L) (layer_plan t (t_dev s) (L * C * D)) plan (l * C + c) om w1) in Nc;
    [|reflexivity|exact I2|exact W1].
  rewrite (layer_value w (t_type s) (t_dev s) (L * C * D) (layer_plan t (t_lot s) L ++ layer_plan t (t_chp s) (L * C)) [] plan ((l * C + c) * D + d) om w2) in Nd.
  2:{ unfold plan, latent_plan. rewrite app_nil_r, <- app_assoc. reflexivity. }
  2:{ exact I3. }
  2:{ intros g. rewrite W2. destruct (tape_ext (layer_plan t (t_chp s) (L * C)) w1 _ W1) as [_ X]. rewrite X, after_app. reflexivity. }
  rewrite app_length in Nd. injection Nl as <-. injection Nc as <-. injection Nd as <-.
  unfold at3. cbn [fst snd]. erewrite nth_error_nth by exact Na. reflexivity.
Qed.

Section Latent.
Variables (E : (Om -> R) -> R) (HE : expectation E) (w : Om -> world) (o : lvar R) (s : told R) (D C L : nat).
Hypotheses (Kr : lv_rep o s) (Ad : acceptable (t_dev s)) (Ac : acceptable (t_chp s)) (Al : acceptable (t_lot s)).
Let sample_of (i : nat * nat * nat) (om : Om) : R := at3 C D (fst (gen_latent o D C L (w om))) i.

Lemma latent_array : gives_array (fun om => fst (gen_latent o D C L (w om))) D C L.
Proof. intros om. destruct (gen_latent_values w o s D C L Kr Ad Ac Al om) as (a & Ea & Hs & Hl & _). eauto. Qed.
Lemma latent_placed : let t := t_type s in
  placed (latent_plan s D C L) (layer_dist t (t_lot s)) 0 L /\
  placed (latent_plan s D C L) (layer_dist t (t_chp s)) (length (layer_plan t (t_lot s) L)) (L * C) /\
  placed (latent_plan s D C L) (layer_dist t (t_dev s)) (length (layer_plan t (t_lot s) L) + length (layer_plan t (t_chp s) (L * C))) (L * C * D).
Proof.
  cbn beta zeta. split; [|split].
  - eapply (placed_layer _ _ _ [] _ _ Al). reflexivity.
  - eapply (placed_layer _ _ _ (layer_plan (t_type s) (t_lot s) L) _ _ Ac). reflexivity.
  - rewrite <- app_length. apply (placed_layer _ _ _ (layer_plan (t_type s) (t_lot s) L ++ layer_plan (t_type s) (t_chp s) (L * C)) [] _ Ad).
    unfold latent_plan. now rewrite app_nil_r, app_assoc.
Qed.

Lemma latent_offset : t_type s = Offset -> distributed E (latent_plan s D C L) w -> uncorrelated E (latent_plan s D C L) w ->
  forall i j, inside D C L i -> inside D C L j ->
  E (sample_of i) = match t_deter s with Some v => v | None => 0 end +
                    mean (layer_dist Offset (t_lot s)) + mean (layer_dist Offset (t_chp s)) + mean (layer_dist Offset (t_dev s)) /\
  cov E (sample_of i) (sample_of j) =
    when (same_lot i j) (variance (layer_dist Offset (t_lot s))) + when (same_chip i j) (variance (layer_dist Offset (t_chp s))) +
    when (same_device i j) (variance (layer_dist Offset (t_dev s))).
Proof.
  intros Et Kd Ku i j (Hl & Hc & Hd) (Hl' & Hc' & Hd').
  destruct latent_placed as (Pl & Pc & Pd). cbn beta zeta in *.
  pose proof (sum_moments E HE (latent_plan s D C L) w _ _ _ _ _ _ _ _ _ Pl Pc Pd) as K.
  specialize (K ltac:(rewrite <- layer_plan_length; lia) ltac:(rewrite <- layer_plan_length; lia)).
  specialize (K (match t_deter s with Some v => v | None => 0 end)
    (fst (fst i)) (fst (fst i) * C + snd (fst i))%nat ((fst (fst i) * C + snd (fst i)) * D + snd i)%nat
    (fst (fst j)) (fst (fst j) * C + snd (fst j))%nat ((fst (fst j) * C + snd (fst j)) * D + snd j)%nat Kd Ku
    Hl (idx2_lt _ _ _ _ Hl Hc) (idx3_lt _ _ _ _ _ _ Hl Hc Hd) Hl' (idx2_lt _ _ _ _ Hl' Hc') (idx3_lt _ _ _ _ _ _ Hl' Hc' Hd')).
  cbn beta zeta in K. rewrite same_chip_idx, same_device_idx in K by assumption. rewrite Et in K.
  assert (V : forall i, inside D C L i -> forall om, sample_of i om = match t_deter s with Some v => v | None => 0 end +
     (value (latent_plan s D C L) w (layer_dist Offset (t_lot s)) 0 (fst (fst i)) om +
      (value (latent_plan s D C L) w (layer_dist Offset (t_chp s)) (length (layer_plan Offset (t_lot s) L)) (fst (fst i) * C + snd (fst i)) om +
       value (latent_plan s D C L) w (layer_dist Offset (t_dev s)) (length (layer_plan Offset (t_lot s) L) + length (layer_plan Offset (t_chp s) (L * C)))
         ((fst (fst i) * C + snd (fst i)) * D + snd i) om))).
  { intros k Hk om. unfold sample_of. destruct (gen_latent_values w o s D C L Kr Ad Ac Al om) as (a & Ea & _ & _ & Va).
    rewrite Ea, (Va k Hk). cbn beta zeta. rewrite Et. cbn [S_Latent.combine]. destruct (t_deter s); cbn [nadd ROps]; ring. }
  destruct K as [K1 K2]. split.
  - rewrite (E_ext E HE _ _ (V i (conj Hl (conj Hc Hd)))). exact K1.
  - rewrite (cov_ext E HE _ _ _ _ (V i (conj Hl (conj Hc Hd))) (V j (conj Hl' (conj Hc' Hd')))). exact K2.
Qed.
Lemma latent_scaling : t_type s = Scaling -> distributed E (latent_plan s D C L) w -> independent E (latent_plan s D C L) w ->
  forall i j, inside D C L i -> inside D C L j ->
  let c := match t_deter s with Some v => v | None => 1 end in
  E (sample_of i) = c * mean (layer_dist Scaling (t_lot s)) * mean (layer_dist Scaling (t_chp s)) * mean (layer_dist Scaling (t_dev s)) /\
  E (fun om => sample_of i om * sample_of j om) =
    c ^ 2 * pair_moment (same_lot i j) (layer_dist Scaling (t_lot s)) * pair_moment (same_chip i j) (layer_dist Scaling (t_chp s)) *
    pair_moment (same_device i j) (layer_dist Scaling (t_dev s)).
Proof.
  intros Et Kd Ku i j (Hl & Hc & Hd) (Hl' & Hc' & Hd').
  destruct latent_placed as (Pl & Pc & Pd). cbn beta zeta in *.
  pose proof (product_moments E HE (latent_plan s D C L) w _ _ _ _ _ _ _ _ _ Pl Pc Pd) as K.
  specialize (K ltac:(rewrite <- layer_plan_length; lia) ltac:(rewrite <- layer_plan_length; lia)).
  specialize (K (match t_deter s with Some v => v | None => 1 end)
    (fst (fst i)) (fst (fst i) * C + snd (fst i))%nat ((fst (fst i) * C + snd (fst i)) * D + snd i)%nat
    (fst (fst j)) (fst (fst j) * C + snd (fst j))%nat ((fst (fst j) * C + snd (fst j)) * D + snd j)%nat Kd Ku
    Hl (idx2_lt _ _ _ _ Hl Hc) (idx3_lt _ _ _ _ _ _ Hl Hc Hd) Hl' (idx2_lt _ _ _ _ Hl' Hc') (idx3_lt _ _ _ _ _ _ Hl' Hc' Hd')).
  cbn beta zeta in K. rewrite same_chip_idx, same_device_idx in K by assumption. rewrite Et in K.
  assert (V : forall i, inside D C L i -> forall om, sample_of i om = match t_deter s with Some v => v | None => 1 end *
     (value (latent_plan s D C L) w (layer_dist Scaling (t_lot s)) 0 (fst (fst i)) om *
      (value (latent_plan s D C L) w (layer_dist Scaling (t_chp s)) (length (layer_plan Scaling (t_lot s) L)) (fst (fst i) * C + snd (fst i)) om *
       value (latent_plan s D C L) w (layer_dist Scaling (t_dev s)) (length (layer_plan Scaling (t_lot s) L) + length (layer_plan Scaling (t_chp s) (L * C)))
         ((fst (fst i) * C + snd (fst i)) * D + snd i) om))).
  { intros k Hk om. unfold sample_of. destruct (gen_latent_values w o s D C L Kr Ad Ac Al om) as (a & Ea & _ & _ & Va).
    rewrite Ea, (Va k Hk). cbn beta zeta. rewrite Et. cbn [S_Latent.combine]. destruct (t_deter s); cbn [nmul ROps]; ring. }
  destruct K as [K1 K2]. split.
  - rewrite (E_ext E HE _ _ (V i (conj Hl (conj Hc Hd)))). exact K1.
  - etransitivity; [|exact K2]. apply (E_ext E HE). intros om. now rewrite (V i (conj Hl (conj Hc Hd))), (V j (conj Hl' (conj Hc' Hd'))).
Qed.
End Latent.
End Plans.
