(** Lemmas about means, variances and correlations of generated samples. *)
From Coq Require Import Reals Qreals List Lia Lra Bool.
From Coq.micromega Require RMicromega.
From Flocq Require Import Core.
From Verif Require Import M_Base M_Num M_NumR M_Nd M_RandVar M_Latent M_Env S_Latent L_Latent S_Moments.
Import ListNotations.
Open Scope R_scope.

Section Expect.
Context {Om : Type} (E : (Om -> R) -> R) (HE : expectation E).

Lemma E_ext f g : (forall o, f o = g o) -> E f = E g. Proof. apply (ex_ext _ HE). Qed.
Lemma E_zero : E (fun _ => 0) = 0.
Proof.
  pose proof (ex_lin _ HE 1 (fun _ => 0) (fun _ => 0)) as K. cbn beta in K.
  rewrite (E_ext (fun o => 1 * 0 + 0) (fun _ => 0)) in K by (intros; ring). lra.
Qed.
Lemma E_plus f g : E (fun o => f o + g o) = E f + E g.
Proof. rewrite (E_ext _ (fun o => 1 * f o + g o)) by (intros; ring). rewrite (ex_lin _ HE). ring. Qed.
Lemma E_scal a f : E (fun o => a * f o) = a * E f.
Proof. rewrite (E_ext _ (fun o => a * f o + 0)) by (intros; ring). rewrite (ex_lin _ HE a f (fun _ => 0)), E_zero. ring. Qed.
Lemma E_const c : E (fun _ => c) = c.
Proof. rewrite (E_ext _ (fun o => c * (fun _ => 1) o)) by (intros; ring). rewrite E_scal, (ex_one _ HE). ring. Qed.

Lemma cov_ext f f' g g' : (forall o, f o = f' o) -> (forall o, g o = g' o) -> cov E f g = cov E f' g'.
Proof.
  intros K K'. unfold cov. rewrite (E_ext f f' K), (E_ext g g' K').
  rewrite (E_ext (fun o => f o * g o) (fun o => f' o * g' o)) by (intros; rewrite K, K'; reflexivity). reflexivity.
Qed.
Lemma cov_sym f g : cov E f g = cov E g f.
Proof. unfold cov. rewrite (E_ext (fun o => f o * g o) (fun o => g o * f o)) by (intros; ring). ring. Qed.
Lemma cov_plus_l f g h : cov E (fun o => f o + g o) h = cov E f h + cov E g h.
Proof.
  unfold cov. rewrite (E_ext (fun o => (f o + g o) * h o) (fun o => f o * h o + g o * h o)) by (intros; ring).
  rewrite !E_plus. ring.
Qed.
Lemma cov_plus_r f g h : cov E h (fun o => f o + g o) = cov E h f + cov E h g.
Proof. rewrite cov_sym, cov_plus_l, (cov_sym f), (cov_sym g). reflexivity. Qed.
Lemma cov_const_l c h : cov E (fun _ => c) h = 0.
Proof. unfold cov. rewrite E_scal, E_const. ring. Qed.
Lemma cov_const_r c h : cov E h (fun _ => c) = 0.
Proof. rewrite cov_sym. apply cov_const_l. Qed.
End Expect.

(** ** Draws *)
Section Tape.
Context {Rg : Rng R}.

Fixpoint after (plan : list (nat * npdist R)) (w : world) : world :=
  match plan with
  | [] => w
  | (g, p) :: r => after r (fun i => if Nat.eqb i g then snd (rdraw p (w g)) else w i)
  end.
Lemma tape_length plan w : length (tape plan w) = length plan.
Proof. revert w. induction plan as [|[g p] r IH]; intros w; cbn [tape length]; [reflexivity|]. now rewrite IH. Qed.
Lemma tape_ext plan w w' : (forall g, w g = w' g) -> tape plan w = tape plan w' /\ forall g, after plan w g = after plan w' g.
Proof.
  revert w w'. induction plan as [|[g p] r IH]; intros w w' K; cbn [tape after]; [auto|].
  rewrite (K g). destruct (IH (fun i => if Nat.eqb i g then snd (rdraw p (w' g)) else w i)
                             (fun i => if Nat.eqb i g then snd (rdraw p (w' g)) else w' i)) as [A B].
  { intros i. destruct (Nat.eqb i g); auto. }
  now rewrite A.
Qed.
Lemma tape_app a b w : tape (a ++ b) w = tape a w ++ tape b (after a w).
Proof. revert w. induction a as [|[g p] r IH]; intros w; cbn [tape after app]; [reflexivity|]. now rewrite IH. Qed.
Lemma after_app a b w : after (a ++ b) w = after b (after a w).
Proof. revert w. induction a as [|[g p] r IH]; intros w; cbn [after app]; [reflexivity|]. now rewrite IH. Qed.
Lemma tape_draws g p n w :
  tape (repeat (g, p) n) w = fst (draws p n (w g)) /\ forall i, after (repeat (g, p) n) w i = wset w g (snd (draws p n (w g))) i.
Proof.
  revert w. induction n as [|n IH]; intros w; cbn [repeat tape after draws].
  - split; [reflexivity|]. intros i. unfold wset. cbn [snd]. destruct (Nat.eqb_spec i g); subst; reflexivity.
  - destruct (rdraw p (w g)) as [x s1] eqn:Er. cbn [fst snd].
    specialize (IH (fun i => if Nat.eqb i g then s1 else w i)). cbn beta in IH. rewrite Nat.eqb_refl in IH.
    destruct (draws p n s1) as [xs s2] eqn:Ed. cbn [fst snd] in *. destruct IH as [A B].
    split; [now rewrite A|]. intros i. rewrite B. unfold wset. destruct (Nat.eqb i g); reflexivity.
Qed.

(** The values of a layer. *)
Definition layer_values (t : vtype) (given : option (rv R)) (n : nat) (w : world) : list R :=
  match request (layer_dist t given) with
  | Some _ => tape (layer_plan t given n) w
  | None => repeat (mean (layer_dist t given)) n
  end.
Lemma layer_sample t r f given n w : stored t r f given -> acceptable given ->
  exists w', sample r n w = (Ok (layer_values t given n w), w') /\ forall g, w' g = after (layer_plan t given n) w g.
Proof.
  intros K Ka. unfold layer_values, layer_plan.
  destruct given as [x|]; cbn [layer_dist layer_gen].
  - destruct K as (_ & Eg & Ed). destruct (Ka x eq_refl) as [Kb Kv].
    unfold sample. rewrite Ed, Eg. destruct (rv_dist x) as [v|mu sigma|a b|a b]; cbn [request params_numpy] in *.
    + exists w. split; [reflexivity|]. reflexivity.
    + rewrite (Kv _ eq_refl). destruct (tape_draws (rv_gen x) (NNormal mu sigma) n w) as [A B].
      destruct (draws (NNormal mu sigma) n (w (rv_gen x))) as [xs s]. cbn [fst snd] in *.
      eexists. split; [now rewrite A|]. intros g. now rewrite B.
    + assert (E : neqb b n0 = false).
      { specialize (Kb a b eq_refl). apply Req_bool_false. change (n0 (V := R)) with (Q2R 0). now rewrite RMicromega.Q2R_0. }
      rewrite E. replace (ndiv n1 b) with (1 / b) by (change (n1 (V := R)) with (Q2R 1); now rewrite RMicromega.Q2R_1).
      rewrite (Kv _ eq_refl). destruct (tape_draws (rv_gen x) (NGamma a (1 / b)) n w) as [A B].
      destruct (draws (NGamma a (1 / b)) n (w (rv_gen x))) as [xs s]. cbn [fst snd] in *.
      eexists. split; [now rewrite A|]. intros g. now rewrite B.
    + rewrite (Kv _ eq_refl). destruct (tape_draws (rv_gen x) (NUniform a b) n w) as [A B].
      destruct (draws (NUniform a b) n (w (rv_gen x))) as [xs s]. cbn [fst snd] in *.
      eexists. split; [now rewrite A|]. intros g. now rewrite B.
  - destruct K as (_ & Ed). exists w. unfold sample. rewrite Ed. cbn [request mean]. split; [|reflexivity].
    unfold ret. do 3 f_equal. destruct t; [apply RMicromega.Q2R_1|apply RMicromega.Q2R_0].
Qed.
End Tape.

Definition proper (d : dist R) : Prop := forall a b, d = DGamma a b -> b <> 0.
Lemma request_moments d p : proper d -> request d = Some p -> np_mean p = mean d /\ np_var p = variance d.
Proof.
  intros K Er. destruct d as [v|mu sigma|a b|a b]; cbn [request] in Er; inversion Er; subst; cbn [np_mean np_var mean variance]; split; try reflexivity.
  - unfold Rdiv. ring.
  - specialize (K a b eq_refl). field. exact K.
Qed.
Lemma request_none d : request d = None -> variance d = 0.
Proof. destruct d; cbn; congruence. Qed.

(** ** Layers of a plan *)
Section Layered.
Context {Rg : Rng R} {Om : Type} (E : (Om -> R) -> R) (HE : expectation E) (plan : list (nat * npdist R)) (w : Om -> world).

Definition value (d : dist R) (off i : nat) (o : Om) : R :=
  match request d with Some _ => draw plan w (off + i) o | None => mean d end.
(** The draws of a layer are those from [off] on. *)
Definition placed (d : dist R) (off n : nat) : Prop :=
  proper d /\ forall p, request d = Some p -> (off + n <= length plan)%nat /\ forall i, (i < n)%nat -> exists g, nth_error plan (off + i) = Some (g, p).
Definition size (d : dist R) (n : nat) : nat := match request d with Some _ => n | None => 0%nat end.

Lemma mean_value d off n i : distributed E plan w -> placed d off n -> (i < n)%nat -> E (value d off i) = mean d.
Proof.
  intros Kd [Kp K] Hi. unfold value. destruct (request d) as [p|] eqn:Er; [|apply (E_const E HE)].
  destruct (K p eq_refl) as [_ K']. destruct (K' i Hi) as [g Eg]. destruct (Kd _ _ _ Eg) as [A _].
  destruct (request_moments d p Kp Er) as [M _]. rewrite <- M. exact A.
Qed.
Lemma cov_value d off n i j : distributed E plan w -> uncorrelated E plan w -> placed d off n -> (i < n)%nat -> (j < n)%nat ->
  cov E (value d off i) (value d off j) = when (Nat.eqb i j) (variance d).
Proof.
  intros Kd Ku [Kp K] Hi Hj. unfold value. destruct (request d) as [p|] eqn:Er.
  - destruct (K p eq_refl) as [Kl K']. destruct (Nat.eqb_spec i j) as [->|N]; cbn [when].
    + destruct (K' j Hj) as [g Eg]. destruct (Kd _ _ _ Eg) as [_ A]. destruct (request_moments d p Kp Er) as [_ M].
      rewrite <- M. exact A.
    + apply Ku; lia.
  - rewrite (cov_const_l E HE). rewrite (request_none d Er). destruct (Nat.eqb i j); reflexivity.
Qed.
Lemma cov_values d off n i d' off' n' j : uncorrelated E plan w -> placed d off n -> placed d' off' n' -> (i < n)%nat -> (j < n')%nat ->
  (off + size d n <= off')%nat -> cov E (value d off i) (value d' off' j) = 0.
Proof.
  intros Ku [_ K] [_ K'] Hi Hj Hs. unfold value, size in *.
  destruct (request d) as [p|]; [|apply (cov_const_l E HE)].
  destruct (request d') as [p'|]; [|apply (cov_const_r E HE)].
  destruct (K p eq_refl) as [Kl _]. destruct (K' p' eq_refl) as [Kl' _]. apply Ku; lia.
Qed.

(** Three layers one after the other. *)
Variables (d1 d2 d3 : dist R) (o1 o2 o3 n1' n2' n3' : nat).
Hypotheses (P1 : placed d1 o1 n1') (P2 : placed d2 o2 n2') (P3 : placed d3 o3 n3').
Hypotheses (H12 : (o1 + size d1 n1' <= o2)%nat) (H23 : (o2 + size d2 n2' <= o3)%nat).

Lemma size_order : (o1 + size d1 n1' <= o3)%nat. Proof. lia. Qed.
Lemma sum_moments c i1 i2 i3 j1 j2 j3 : distributed E plan w -> uncorrelated E plan w ->
  (i1 < n1')%nat -> (i2 < n2')%nat -> (i3 < n3')%nat -> (j1 < n1')%nat -> (j2 < n2')%nat -> (j3 < n3')%nat ->
  let x := fun o => c + (value d1 o1 i1 o + (value d2 o2 i2 o + value d3 o3 i3 o)) in
  let y := fun o => c + (value d1 o1 j1 o + (value d2 o2 j2 o + value d3 o3 j3 o)) in
  E x = c + mean d1 + mean d2 + mean d3 /\
  cov E x y = when (Nat.eqb i1 j1) (variance d1) + when (Nat.eqb i2 j2) (variance d2) + when (Nat.eqb i3 j3) (variance d3).
Proof.
  intros Kd Ku A1 A2 A3 B1 B2 B3. cbn beta zeta. split.
  - rewrite !(E_plus E HE), (E_const E HE), (mean_value d1 o1 n1'), (mean_value d2 o2 n2'), (mean_value d3 o3 n3') by assumption. ring.
  - rewrite (cov_plus_l E HE), (cov_const_l E HE), (cov_plus_r E HE), (cov_const_r E HE).
    rewrite !(cov_plus_l E HE), !(cov_plus_r E HE).
    rewrite (cov_value d1 o1 n1'), (cov_value d2 o2 n2'), (cov_value d3 o3 n3') by assumption.
    rewrite (cov_values d1 o1 n1' i1 d2 o2 n2' j2), (cov_values d1 o1 n1' i1 d3 o3 n3' j3), (cov_values d2 o2 n2' i2 d3 o3 n3' j3) by (assumption || apply size_order).
    rewrite (cov_sym E HE (value d2 o2 i2) (value d1 o1 j1)), (cov_sym E HE (value d3 o3 i3) (value d1 o1 j1)), (cov_sym E HE (value d3 o3 i3) (value d2 o2 j2)).
    rewrite (cov_values d1 o1 n1' j1 d2 o2 n2' i2), (cov_values d1 o1 n1' j1 d3 o3 n3' i3), (cov_values d2 o2 n2' j2 d3 o3 n3' i3) by (assumption || apply size_order).
    ring.
Qed.

(** *** Products *)
Definition pick (kvs : list (nat * (R -> R))) (i : nat) : R -> R :=
  match find (fun kv => Nat.eqb (fst kv) i) kvs with Some kv => snd kv | None => fun _ => 1 end.
Fixpoint prods (kvs : list (nat * (R -> R))) (o : Om) : R :=
  match kvs with [] => 1 | (i, f) :: r => f (draw plan w i o) * prods r o end.
Fixpoint exps (kvs : list (nat * (R -> R))) : R :=
  match kvs with [] => 1 | (i, f) :: r => E (fun o => f (draw plan w i o)) * exps r end.

Lemma product_ext n f g : (forall i, (i < n)%nat -> f i = g i) -> product n f = product n g.
Proof. clear H12 H23. induction n as [|n IH]; intros K; cbn [product]; [reflexivity|]. rewrite IH by (intros; apply K; lia). rewrite K by lia. reflexivity. Qed.
Lemma product_one n : product n (fun _ => 1) = 1.
Proof. clear H12 H23. induction n as [|n IH]; cbn [product]; [reflexivity|]. rewrite IH. ring. Qed.
Lemma product_at n p a g : (p < n)%nat -> g p = 1 -> product n (fun i => if Nat.eqb p i then a else g i) = a * product n g.
Proof. clear H12 H23.
  induction n as [|n IH]; intros Hp Hg; [lia|]. cbn [product].
  destruct (Nat.eq_dec p n) as [->|N].
  - rewrite (product_ext n _ g) by (intros i Hi; destruct (Nat.eqb_spec n i); [lia|reflexivity]).
    rewrite Nat.eqb_refl, Hg. ring.
  - rewrite IH by (lia || assumption). destruct (Nat.eqb_spec p n); [lia|]. ring.
Qed.
Lemma pick_cons i f r j : pick ((i, f) :: r) j = if Nat.eqb i j then f else pick r j.
Proof. clear H12 H23. unfold pick. cbn [find fst snd]. destruct (Nat.eqb i j); reflexivity. Qed.
Lemma pick_out r j : ~ In j (map fst r) -> pick r j = fun _ => 1.
Proof. clear H12 H23.
  induction r as [|[i f] r IH]; intros K; [reflexivity|]. rewrite pick_cons. cbn [map fst In] in K.
  destruct (Nat.eqb_spec i j); [tauto|]. apply IH. tauto.
Qed.
Lemma product_prods n kvs o : NoDup (map fst kvs) -> (forall i, In i (map fst kvs) -> (i < n)%nat) ->
  product n (fun i => pick kvs i (draw plan w i o)) = prods kvs o.
Proof. clear H12 H23.
  induction kvs as [|[k f] r IH]; intros N K; cbn [prods].
  - apply product_one.
  - cbn [map fst] in N. inversion N; subst.
    rewrite <- IH by (assumption || (intros; apply K; right; assumption)).
    rewrite <- (product_at n k (f (draw plan w k o)) (fun i => pick r i (draw plan w i o))).
    + apply product_ext. intros i Hi. rewrite pick_cons. destruct (Nat.eqb_spec k i); subst; reflexivity.
    + apply K. left. reflexivity.
    + now rewrite pick_out.
Qed.
Lemma product_exps n kvs : NoDup (map fst kvs) -> (forall i, In i (map fst kvs) -> (i < n)%nat) ->
  product n (fun i => E (fun o => pick kvs i (draw plan w i o))) = exps kvs.
Proof. clear H12 H23.
  induction kvs as [|[k f] r IH]; intros N K; cbn [exps].
  - rewrite (product_ext n _ (fun _ => 1)) by (intros; exact (E_const E HE 1)). apply product_one.
  - cbn [map fst] in N. inversion N; subst.
    rewrite <- IH by (assumption || (intros; apply K; right; assumption)).
    rewrite <- (product_at n k (E (fun o => f (draw plan w k o))) (fun i => E (fun o => pick r i (draw plan w i o)))).
    + apply product_ext. intros i Hi. rewrite pick_cons. destruct (Nat.eqb_spec k i); subst; reflexivity.
    + apply K. left. reflexivity.
    + rewrite pick_out by assumption. exact (E_const E HE 1).
Qed.
Lemma independent_prods kvs : independent E plan w -> NoDup (map fst kvs) -> (forall i, In i (map fst kvs) -> (i < length plan)%nat) ->
  E (prods kvs) = exps kvs.
Proof. clear H12 H23.
  intros Ki N K. rewrite <- (product_exps (length plan) kvs N K), <- Ki. apply (E_ext E HE). intros o. symmetry. now apply product_prods.
Qed.
Lemma prods_app a b o : prods (a ++ b) o = prods a o * prods b o.
Proof. induction a as [|[i f] r IH]; cbn [prods app]; [ring|]. rewrite IH. ring. Qed.
Lemma exps_app a b : exps (a ++ b) = exps a * exps b.
Proof. induction a as [|[i f] r IH]; cbn [exps app]; [ring|]. rewrite IH. ring. Qed.

Lemma independent_uncorrelated : independent E plan w -> uncorrelated E plan w.
Proof. clear H12 H23.
  intros Ki i j Hi Hj N. unfold cov.
  pose proof (independent_prods [(i, fun x => x); (j, fun x => x)] Ki) as K. cbn [map fst exps] in K.
  rewrite (E_ext E HE (fun o => draw plan w i o * draw plan w j o) (prods [(i, fun x => x); (j, fun x => x)])) by (intros; cbn [prods]; ring).
  rewrite K.
  - change (E (draw plan w i) * (E (draw plan w j) * 1) - E (draw plan w i) * E (draw plan w j) = 0). ring.
  - constructor; [cbn; intuition congruence|constructor; [cbn; tauto|constructor]].
  - cbn. intros k [<-|[<-|[]]]; assumption.
Qed.

(** One value of a layer, two values of a layer. *)
Definition once (d : dist R) (off i : nat) : list (nat * (R -> R)) := match request d with Some _ => [((off + i)%nat, fun x => x)] | None => [] end.
Definition twice (d : dist R) (off i j : nat) : list (nat * (R -> R)) :=
  match request d with
  | Some _ => if Nat.eqb i j then [((off + i)%nat, fun x => x * x)] else [((off + i)%nat, fun x => x); ((off + j)%nat, fun x => x)]
  | None => []
  end.
Definition fixed (d : dist R) : R := match request d with Some _ => 1 | None => mean d end.
Lemma once_value d off i o : value d off i o = fixed d * prods (once d off i) o.
Proof. unfold value, fixed, once. destruct (request d); cbn [prods]; ring. Qed.
Lemma twice_value d off i j o : value d off i o * value d off j o = fixed d * fixed d * prods (twice d off i j) o.
Proof.
  unfold value, fixed, twice. destruct (request d); cbn [prods]; [|ring].
  destruct (Nat.eqb_spec i j) as [->|N]; cbn [prods]; ring.
Qed.
Lemma once_exps d off n i : distributed E plan w -> placed d off n -> (i < n)%nat -> fixed d * exps (once d off i) = mean d.
Proof.
  intros Kd [Kp K] Hi. unfold fixed, once. destruct (request d) as [p|] eqn:Er; cbn [exps]; [|ring].
  destruct (K p eq_refl) as [_ K']. destruct (K' i Hi) as [g Eg]. destruct (Kd _ _ _ Eg) as [A _].
  destruct (request_moments d p Kp Er) as [M _]. rewrite <- M, <- A. change (fun o => draw plan w (off + i) o) with (draw plan w (off + i)). ring.
Qed.
Lemma twice_exps d off n i j : distributed E plan w -> placed d off n -> (i < n)%nat -> (j < n)%nat ->
  fixed d * fixed d * exps (twice d off i j) = pair_moment (Nat.eqb i j) d.
Proof.
  intros Kd [Kp K] Hi Hj. unfold fixed, twice, pair_moment, second. destruct (request d) as [p|] eqn:Er; cbn [exps].
  - destruct (K p eq_refl) as [_ K']. destruct (request_moments d p Kp Er) as [M1 M2].
    destruct (K' i Hi) as [g Eg]. destruct (Kd _ _ _ Eg) as [A A2]. destruct (K' j Hj) as [g' Eg']. destruct (Kd _ _ _ Eg') as [B _].
    destruct (Nat.eqb_spec i j) as [->|N]; cbn [exps].
    + unfold var, cov in A2. rewrite <- M1, <- M2, <- A2, <- A. ring.
    + rewrite <- M1. change (fun o => draw plan w (off + i) o) with (draw plan w (off + i)). change (fun o => draw plan w (off + j) o) with (draw plan w (off + j)).
      rewrite A, B. ring.
  - rewrite (request_none d Er). destruct (Nat.eqb i j); ring.
Qed.
Lemma once_in d off n i k : placed d off n -> (i < n)%nat -> In k (map fst (once d off i)) ->
  (off <= k < off + size d n)%nat /\ (k < length plan)%nat.
Proof.
  intros [_ K] Hi. unfold once, size. destruct (request d) as [p|]; cbn [map fst In]; [|tauto].
  destruct (K p eq_refl) as [Kl _]. intros [<-|[]]. lia.
Qed.
Lemma twice_in d off n i j k : placed d off n -> (i < n)%nat -> (j < n)%nat -> In k (map fst (twice d off i j)) ->
  (off <= k < off + size d n)%nat /\ (k < length plan)%nat.
Proof.
  intros [_ K] Hi Hj. unfold twice, size. destruct (request d) as [p|]; cbn [map fst In]; [|tauto].
  destruct (K p eq_refl) as [Kl _]. destruct (Nat.eqb i j); cbn [map fst In]; [intros [<-|[]]|intros [<-|[<-|[]]]]; lia.
Qed.
Lemma once_nodup d off i : NoDup (map fst (once d off i)).
Proof. unfold once. destruct (request d); cbn; repeat constructor; cbn; tauto. Qed.
Lemma twice_nodup d off i j : NoDup (map fst (twice d off i j)).
Proof.
  unfold twice. destruct (request d); cbn [map]; [|constructor].
  destruct (Nat.eqb_spec i j); cbn [map fst]; repeat constructor; cbn; try tauto. intros [K|[]]. lia.
Qed.
Lemma nodup_app3 (a b c : list nat) lo1 hi1 lo2 hi2 lo3 hi3 : NoDup a -> NoDup b -> NoDup c ->
  (forall k, In k a -> (lo1 <= k < hi1)%nat) -> (forall k, In k b -> (lo2 <= k < hi2)%nat) -> (forall k, In k c -> (lo3 <= k < hi3)%nat) ->
  (hi1 <= lo2)%nat -> (hi2 <= lo3)%nat -> (hi1 <= lo3)%nat -> NoDup (a ++ b ++ c).
Proof.
  intros Na Nb Nc Ka Kb Kc X1 X2 X3.
  assert (J : forall l l' : list nat, NoDup l -> NoDup l' -> (forall k, In k l -> ~ In k l') -> NoDup (l ++ l')).
  { induction l as [|x l IH]; intros l' N N' K; cbn [app]; [exact N'|]. inversion N; subst. constructor.
    - rewrite in_app_iff. intros [I|I]; [contradiction|]. apply (K x); [left; reflexivity|exact I].
    - apply IH; [assumption|assumption|]. intros k Hk. apply K. right. exact Hk. }
  apply J; [exact Na| |].
  - apply J; [exact Nb|exact Nc|]. intros k I I'. apply Kb in I. apply Kc in I'. lia.
  - intros k I I'. rewrite in_app_iff in I'. apply Ka in I. destruct I' as [I'|I']; [apply Kb in I'|apply Kc in I']; lia.
Qed.

Lemma product_moments c i1 i2 i3 j1 j2 j3 : distributed E plan w -> independent E plan w ->
  (i1 < n1')%nat -> (i2 < n2')%nat -> (i3 < n3')%nat -> (j1 < n1')%nat -> (j2 < n2')%nat -> (j3 < n3')%nat ->
  let x := fun o => c * (value d1 o1 i1 o * (value d2 o2 i2 o * value d3 o3 i3 o)) in
  let y := fun o => c * (value d1 o1 j1 o * (value d2 o2 j2 o * value d3 o3 j3 o)) in
  E x = c * mean d1 * mean d2 * mean d3 /\
  E (fun o => x o * y o) = c ^ 2 * pair_moment (Nat.eqb i1 j1) d1 * pair_moment (Nat.eqb i2 j2) d2 * pair_moment (Nat.eqb i3 j3) d3.
Proof.
  intros Kd Ki A1 A2 A3 B1 B2 B3. cbn beta zeta. split.
  - rewrite (E_ext E HE _ (fun o => (c * fixed d1 * fixed d2 * fixed d3) * prods (once d1 o1 i1 ++ once d2 o2 i2 ++ once d3 o3 i3) o))
      by (intros o; rewrite !once_value, !prods_app; ring).
    rewrite (E_scal E HE). change (fun o => prods (once d1 o1 i1 ++ once d2 o2 i2 ++ once d3 o3 i3) o) with (prods (once d1 o1 i1 ++ once d2 o2 i2 ++ once d3 o3 i3)).
    rewrite independent_prods; [|exact Ki| |].
    + rewrite !exps_app.
      rewrite <- (once_exps d1 o1 n1' i1), <- (once_exps d2 o2 n2' i2), <- (once_exps d3 o3 n3' i3) by assumption. ring.
    + rewrite !map_app.
      apply (nodup_app3 _ _ _ o1 (o1 + size d1 n1') o2 (o2 + size d2 n2') o3 (o3 + size d3 n3')); try apply once_nodup; try assumption; try apply size_order.
      * intros k I. eapply once_in in I; [|exact P1|exact A1]. tauto.
      * intros k I. eapply once_in in I; [|exact P2|exact A2]. tauto.
      * intros k I. eapply once_in in I; [|exact P3|exact A3]. tauto.
    + intros k I. rewrite !map_app, !in_app_iff in I.
      destruct I as [I|[I|I]]; [eapply once_in in I; [|exact P1|exact A1]|eapply once_in in I; [|exact P2|exact A2]|eapply once_in in I; [|exact P3|exact A3]]; tauto.
  - rewrite (E_ext E HE _ (fun o => (c ^ 2 * (fixed d1 * fixed d1) * (fixed d2 * fixed d2) * (fixed d3 * fixed d3)) *
        prods (twice d1 o1 i1 j1 ++ twice d2 o2 i2 j2 ++ twice d3 o3 i3 j3) o)).
    2:{ intros o. rewrite !prods_app.
        transitivity (c ^ 2 * (value d1 o1 i1 o * value d1 o1 j1 o) * (value d2 o2 i2 o * value d2 o2 j2 o) * (value d3 o3 i3 o * value d3 o3 j3 o)); [ring|].
        rewrite !twice_value. ring. }
    rewrite (E_scal E HE).
    change (fun o => prods (twice d1 o1 i1 j1 ++ twice d2 o2 i2 j2 ++ twice d3 o3 i3 j3) o) with (prods (twice d1 o1 i1 j1 ++ twice d2 o2 i2 j2 ++ twice d3 o3 i3 j3)).
    rewrite independent_prods; [|exact Ki| |].
    + rewrite !exps_app.
      rewrite <- (twice_exps d1 o1 n1' i1 j1), <- (twice_exps d2 o2 n2' i2 j2), <- (twice_exps d3 o3 n3' i3 j3) by assumption. ring.
    + rewrite !map_app.
      apply (nodup_app3 _ _ _ o1 (o1 + size d1 n1') o2 (o2 + size d2 n2') o3 (o3 + size d3 n3')); try apply twice_nodup; try assumption; try apply size_order.
      * intros k I. eapply twice_in in I; [|exact P1|exact A1|exact B1]. tauto.
      * intros k I. eapply twice_in in I; [|exact P2|exact A2|exact B2]. tauto.
      * intros k I. eapply twice_in in I; [|exact P3|exact A3|exact B3]. tauto.
    + intros k I. rewrite !map_app, !in_app_iff in I.
      destruct I as [I|[I|I]]; [eapply twice_in in I; [|exact P1|exact A1|exact B1]|eapply twice_in in I; [|exact P2|exact A2|exact B2]|eapply twice_in in I; [|exact P3|exact A3|exact B3]]; tauto.
Qed.
End Layered.
