(** Lemmas about the minimiser, over the reals. *)
From Coq Require Import Reals QArith Qreals Lra.
From Flocq Require Import Core.
From Verif Require Import M_Base M_Num M_NumR M_Minimize S_Minimize L_Base.
Open Scope R_scope.

Lemma q2r_0 : Q2R 0 = 0. Proof. unfold Q2R; cbn; field. Qed.
Lemma q2r_1 : Q2R 1 = 1. Proof. unfold Q2R; cbn; field. Qed.
Lemma q2r_2 : Q2R 2 = 2. Proof. unfold Q2R; cbn; field. Qed.
Lemma q2r_3 : Q2R 3 = 3. Proof. unfold Q2R; cbn; field. Qed.
Lemma q2r_5 : Q2R 5 = 5. Proof. unfold Q2R; cbn; field. Qed.
Lemma q2r_h : Q2R (1 # 2) = / 2. Proof. unfold Q2R; cbn; field. Qed.

Lemma gf2_eq : gf2 (V := R) = 2 - (1 + sqrt 5) / 2.
Proof. unfold gf2, golden_ratio. cbn. now rewrite q2r_1, q2r_2, q2r_5. Qed.
Lemma sqrt5 : 2 < sqrt 5 < 3.
Proof.
  assert (H := sqrt_sqrt 5 ltac:(lra)). assert (P := sqrt_pos 5).
  split.
  - destruct (Rlt_le_dec 2 (sqrt 5)); auto.
    assert (sqrt 5 * sqrt 5 <= 2 * 2) by (apply Rmult_le_compat; lra). lra.
  - destruct (Rlt_le_dec (sqrt 5) 3); auto.
    assert (3 * 3 <= sqrt 5 * sqrt 5) by (apply Rmult_le_compat; lra). lra.
Qed.
Lemma gf2_range : 0 < gf2 (V := R) < / 2.
Proof. rewrite gf2_eq. assert (H := sqrt5). lra. Qed.

Section R.
Variables (rel abs_ : R).
Hypothesis rel_nn : 0 <= rel.
Hypothesis abs_nn : 0 <= abs_.
Notation tol := (tol rel abs_).
Notation converged := (converged rel abs_).
Notation next_u := (next_u rel abs_).
Notation step := (step rel abs_).
Notation update := (update rel abs_).

Lemma mid_eq (s : mst R) : mid s = (mb s + ma s) / 2.
Proof. unfold mid. cbn. now rewrite q2r_2. Qed.
Lemma tol_eq (s : mst R) : tol s = rel * Rabs (mx s) + abs_.
Proof. reflexivity. Qed.
Lemma tol_nn (s : mst R) : 0 <= tol s.
Proof. rewrite tol_eq. assert (0 <= rel * Rabs (mx s)) by (apply Rmult_le_pos; [lra|apply Rabs_pos]). lra. Qed.
Lemma tol2_eq (s : mst R) : tol2 rel abs_ s = 2 * tol s.
Proof. unfold tol2. cbn. rewrite q2r_2. lra. Qed.

Lemma converged_spec (s : mst R) :
  converged s = true <-> Rabs (mx s - mid s) < 2 * tol s - (mb s - mid s).
Proof.
  unfold M_Minimize.converged. rewrite tol2_eq. cbn [nltb nabs nsub ROps].
  destruct (Rlt_bool_spec (Rabs (mx s - mid s)) (2 * tol s - (mb s - mid s))); split; intros; try discriminate; auto; lra.
Qed.

(** The last two adjustments of the step. *)
Definition fin (s : mst R) (st0 : R) : R :=
  let t := tol s in
  let st := if Rlt_bool (mx s + st0 - ma s) (2 * t) || Rlt_bool (mb s - (mx s + st0)) (2 * t)
            then (if Rlt_bool (mx s) (mid s) then t else - t) else st0 in
  if Rlt_bool (Rabs st) t then (if Rlt_bool 0 st then t else - t) else st.

Lemma step_fin (s : mst R) : exists st0, step s = fin s st0.
Proof.
  unfold M_Minimize.step, fin. rewrite tol2_eq. cbn -[tol mid gf2].
  unfold n0. cbn [nofQ ROps]. rewrite q2r_0.
  match goal with |- exists st0, (if Rlt_bool (Rabs (if (Rlt_bool ((if ?c then ?x1 else ?x2) - _) _ || _)%bool then _ else (if ?c then ?s1 else ?s2))) _ then _ else _) = _ =>
    exists (if c then s1 else s2); destruct c; reflexivity end.
Qed.

Lemma next_u_cases (s : mst R) :
  (ma s + 2 * tol s <= next_u s <= mb s - 2 * tol s /\ tol s <= Rabs (next_u s - mx s)) \/
  (next_u s = mx s + tol s /\ (mx s < mid s \/ mx s <= mb s - 2 * tol s)) \/
  (next_u s = mx s - tol s /\ (mid s <= mx s \/ ma s + 2 * tol s <= mx s)).
Proof.
  assert (T := tol_nn s).
  unfold M_Minimize.next_u. cbn [nadd ROps]. destruct (step_fin s) as [st0 ->]. unfold fin.
  destruct (Rlt_bool_spec (mx s + st0 - ma s) (2 * tol s)) as [A|A]; cbn [orb].
  - destruct (Rlt_bool_spec (mx s) (mid s)) as [X|X].
    + rewrite (Rlt_bool_false (Rabs (tol s))) by (rewrite Rabs_pos_eq; lra). right; left; lra.
    + rewrite (Rlt_bool_false (Rabs (- tol s))) by (rewrite Rabs_Ropp, Rabs_pos_eq; lra). right; right; lra.
  - destruct (Rlt_bool_spec (mb s - (mx s + st0)) (2 * tol s)) as [B|B].
    + destruct (Rlt_bool_spec (mx s) (mid s)) as [X|X].
      * rewrite (Rlt_bool_false (Rabs (tol s))) by (rewrite Rabs_pos_eq; lra). right; left; lra.
      * rewrite (Rlt_bool_false (Rabs (- tol s))) by (rewrite Rabs_Ropp, Rabs_pos_eq; lra). right; right; lra.
    + destruct (Rlt_bool_spec (Rabs st0) (tol s)) as [S|S].
      * destruct (Rlt_bool_spec 0 st0) as [P|P]; [right; left|right; right]; split; lra.
      * left. replace (mx s + st0 - mx s) with st0 by ring. lra.
Qed.

(** Distance of the new point. *)
Lemma next_u_far (s : mst R) : tol s <= Rabs (next_u s - mx s).
Proof.
  assert (T := tol_nn s). destruct (next_u_cases s) as [[_ H]|[[-> _]|[-> _]]]; auto.
  - replace (mx s + tol s - mx s) with (tol s) by ring. rewrite Rabs_pos_eq; lra.
  - replace (mx s - tol s - mx s) with (- tol s) by ring. rewrite Rabs_Ropp, Rabs_pos_eq; lra.
Qed.

(** A problem that has not converged steps inside its interval. *)
Definition ordered (s : mst R) : Prop := ma s <= mx s <= mb s.
Lemma next_u_inside (s : mst R) : ordered s -> converged s = false -> ma s <= next_u s <= mb s.
Proof.
  intros O C. unfold ordered in O. assert (N : ~ Rabs (mx s - mid s) < 2 * tol s - (mb s - mid s)) by (rewrite <- converged_spec, C; discriminate).
  apply Rnot_lt_le in N.
  assert (T := tol_nn s). rewrite mid_eq in *.
  destruct (next_u_cases s) as [[H _]|[[-> H]|[-> H]]]; [lra| |];
    rewrite ?mid_eq in H; revert N; unfold Rabs; destruct (Rcase_abs _); intros; lra.
Qed.

(** The update in mathematical form. *)
Lemma update_x (s : mst R) fu :
  let s' := update s fu in
  (fu <= mfx s /\ mx s' = next_u s /\ mfx s' = fu /\
     (mx s <= next_u s /\ ma s' = mx s /\ mb s' = mb s \/ next_u s < mx s /\ ma s' = ma s /\ mb s' = mx s)) \/
  (mfx s < fu /\ mx s' = mx s /\ mfx s' = mfx s /\
     (mx s <= next_u s /\ ma s' = ma s /\ mb s' = next_u s \/ next_u s < mx s /\ ma s' = next_u s /\ mb s' = mb s)).
Proof.
  unfold M_Minimize.update. cbn [ma mb mx mfx]. set (u := M_Minimize.next_u rel abs_ s). cbn [nleb nltb ROps].
  destruct (Rle_bool_spec fu (mfx s)) as [L|L]; cbn [andb negb];
  destruct (Rle_bool_spec (mx s) u) as [U|U]; cbn [andb negb];
  destruct (Rlt_bool_spec u (mx s)) as [D|D]; cbn [andb negb]; try lra; auto 10.
Qed.

(** ** Loop induction *)
Section Loop.
Variables (lg : bool) (F : list R -> M (list R)).

Lemma zip_update_length ss fus : length fus = length ss -> length (zip_update rel abs_ ss fus) = length ss.
Proof.
  revert fus. induction ss as [|s ss IH]; intros [|f fus] E; cbn in *; try discriminate; auto.
Qed.
Lemma zip_update_nth ss fus i s f : nth_error ss i = Some s -> nth_error fus i = Some f ->
  nth_error (zip_update rel abs_ ss fus) i = Some (update s f).
Proof.
  revert fus i. induction ss as [|s0 ss IH]; intros fus [|i] E1 E2; try discriminate;
    destruct fus as [|f0 fus]; cbn in *; try discriminate.
  - now inversion E1; inversion E2.
  - auto.
Qed.
Lemma zip_update_nth_inv ss fus i s' : nth_error (zip_update rel abs_ ss fus) i = Some s' ->
  exists s f, nth_error ss i = Some s /\ nth_error fus i = Some f /\ s' = update s f.
Proof.
  revert fus i. induction ss as [|s0 ss IH]; intros fus i E; [destruct i; discriminate|].
  destruct fus as [|f0 fus]; [destruct i; discriminate|]. destruct i as [|i]; cbn in *.
  - inversion E; subst. eauto.
  - eauto.
Qed.

Lemma evalF_ok xs w fs w' : evalF lg F xs w = (Ok fs, w') ->
  F (map (to_point lg) xs) w = (Ok fs, w') /\ length fs = length xs.
Proof.
  unfold evalF. intros E. apply bind_ok in E as (g & w1 & E1 & E2).
  destruct (Nat.eqb_spec (length g) (length xs)) as [L|L]; inversion E2; subst; auto.
Qed.

Lemma mloop_inv (P : list (mst R) -> list (list R * list R) -> Prop) :
  (forall ss ev fus, P ss ev -> forallb converged ss = false -> length fus = length ss ->
     P (zip_update rel abs_ ss fus) (ev ++ [(map next_u ss, fus)])) ->
  forall fuel ss ev w r w', P ss ev -> mloop rel abs_ lg F fuel ss ev w = (Ok r, w') ->
  P (mr_states r) (mr_evals r) /\ mr_conv r = forallb converged (mr_states r).
Proof.
  intros HS. induction fuel as [|k IH]; intros ss ev w r w' HP E; cbn [mloop] in E;
    destruct (forallb converged ss) eqn:C.
  - inversion E; subst; auto.
  - inversion E; subst; auto.
  - inversion E; subst; auto.
  - apply bind_ok in E as (fus & w1 & E1 & E2). apply evalF_ok in E1 as [_ L]. rewrite map_length in L.
    eapply IH; [|exact E2]. now apply HS.
Qed.

Lemma mrun_inv n a0 b0 maxiter (P : list (mst R) -> list (list R * list R) -> Prop) :
  (forall f0, length f0 = n -> P (map (minit a0 b0) f0) [(repeat (a0 + gf2 * (b0 - a0)) n, f0)]) ->
  (forall ss ev fus, P ss ev -> forallb converged ss = false -> length fus = length ss ->
     P (zip_update rel abs_ ss fus) (ev ++ [(map next_u ss, fus)])) ->
  forall w r w', mrun rel abs_ lg F n a0 b0 maxiter w = (Ok r, w') ->
  P (mr_states r) (mr_evals r) /\ mr_conv r = forallb converged (mr_states r).
Proof.
  intros H0 HS w r w' E. unfold mrun in E. apply bind_ok in E as (f0 & w1 & E1 & E2).
  apply evalF_ok in E1 as [_ L]. rewrite repeat_length in L.
  eapply mloop_inv; eauto.
Qed.

Lemma mloop_evals fuel ss ev w r w' : mloop rel abs_ lg F fuel ss ev w = (Ok r, w') ->
  (length (mr_evals r) <= length ev + fuel)%nat /\ length (mr_states r) = length ss.
Proof.
  revert ss ev w. induction fuel as [|k IH]; intros ss ev w E; cbn [mloop] in E;
    destruct (forallb converged ss) eqn:C; try (inversion E; subst; cbn; split; lia).
  apply bind_ok in E as (fus & w1 & E1 & E2). apply evalF_ok in E1 as [_ L]. rewrite map_length in L.
  apply IH in E2 as [E2 E3]. rewrite app_length in E2. cbn in E2. rewrite zip_update_length in E3 by auto. split; lia.
Qed.
End Loop.

(** ** One problem stays inside its bounds (C24) *)
Lemma init_inside a0 b0 : a0 <= b0 -> a0 <= a0 + gf2 * (b0 - a0) <= b0.
Proof.
  intros L. destruct gf2_range as [G1 G2].
  assert (0 <= gf2 * (b0 - a0)) by (apply Rmult_le_pos; lra).
  assert (gf2 * (b0 - a0) <= / 2 * (b0 - a0)) by (apply Rmult_le_compat_r; lra). lra.
Qed.

Lemma update_ordered s fu : ordered s -> converged s = false ->
  ordered (update s fu) /\ ma s <= ma (update s fu) /\ mb (update s fu) <= mb s.
Proof.
  intros O C. assert (I := next_u_inside s O C). unfold ordered in *.
  destruct (update_x s fu) as [(_ & -> & _ & [(? & -> & ->)|(? & -> & ->)])|(_ & -> & _ & [(? & -> & ->)|(? & -> & ->)])]; lra.
Qed.

(** Two functions that agree inside the bounds cannot be told apart. *)
Lemma mloop_agree lg (F G : list R -> M (list R)) lo hi fuel :
  (forall x w, lo <= x <= hi -> F [to_point lg x] w = G [to_point lg x] w) ->
  forall s ev w, ordered s -> lo <= ma s -> mb s <= hi ->
  mloop rel abs_ lg F fuel [s] ev w = mloop rel abs_ lg G fuel [s] ev w.
Proof.
  intros A. induction fuel as [|k IH]; intros s ev w O L1 L2; cbn [mloop forallb]; rewrite ?andb_true_r;
    destruct (converged s) eqn:C; auto.
  assert (I := next_u_inside s O C). cbn [map]. unfold bind, evalF, bind. cbn [map].
  rewrite A by lra. destruct (G _ w) as [[fus|e] w1]; auto.
  destruct fus as [|fu [|? ?]]; cbn; auto. destruct (update_ordered s fu O C) as (O' & ? & ?).
  apply IH; auto; lra.
Qed.
Lemma mrun_agree lg (F G : list R -> M (list R)) lo hi maxiter w :
  lo <= hi -> (forall x w, lo <= x <= hi -> F [to_point lg x] w = G [to_point lg x] w) ->
  mrun rel abs_ lg F 1 lo hi maxiter w = mrun rel abs_ lg G 1 lo hi maxiter w.
Proof.
  intros L A. unfold mrun, bind, evalF, bind. cbn [repeat map]. cbn [nadd nmul nsub ROps].
  assert (I := init_inside lo hi L). rewrite A by auto. destruct (G _ w) as [[f0|e] w1]; auto.
  destruct f0 as [|f [|? ?]]; cbn -[mloop gf2]; auto.
  apply mloop_agree with lo hi; unfold ordered; cbn; auto; lra.
Qed.

Lemma mrun_inside lg F n lo hi maxiter w r w' : n = 1%nat -> lo <= hi ->
  mrun rel abs_ lg F n lo hi maxiter w = (Ok r, w') ->
  (exists s, mr_states r = [s] /\ ordered s /\ lo <= ma s /\ mb s <= hi) /\
  (forall us fus, In (us, fus) (mr_evals r) -> exists u f, us = [u] /\ fus = [f] /\ lo <= u <= hi) /\
  (length (mr_evals r) <= S maxiter)%nat.
Proof.
  intros -> L E. apply and_assoc.
  split.
  2:{ unfold mrun in E. apply bind_ok in E as (f0 & w1 & _ & E). apply mloop_evals in E as [E _]. cbn in E. lia. }
  eapply (mrun_inv lg F 1 lo hi maxiter (fun ss ev =>
    (exists s, ss = [s] /\ ordered s /\ lo <= ma s /\ mb s <= hi) /\
    (forall us fus, In (us, fus) ev -> exists u f, us = [u] /\ fus = [f] /\ lo <= u <= hi))) in E; [apply E| |].
  - intros f0 Lf; destruct f0 as [|f [|]]; try discriminate; assert (I := init_inside lo hi L); split;
    [eexists; split; [reflexivity|]; unfold ordered; cbn; split; [exact I|]; split; apply Rle_refl
    |intros us fus [Q|[]]; inversion Q; subst; cbn; eauto 6].
  - intros ss ev fus [(s & -> & O & L1 & L2) H] C Lf. cbn in C. rewrite andb_true_r in C.
    destruct fus as [|f [|]]; try discriminate. destruct (update_ordered s f O C) as (O' & L3 & L4). split.
    + exists (update s f). split; [reflexivity|]. split; [exact O'|]. split; lra.
    + intros us fus Hin; apply in_app_or in Hin as [Hin|[Q|[]]]; [eauto|].
      injection Q as <- <-. exists (next_u s), f. split; [reflexivity|]; split; [reflexivity|].
      assert (I := next_u_inside s O C). lra.
Qed.

(** ** The best evaluated point is returned (C25) *)
Definition best_at (i : nat) (s : mst R) (ev : list (list R * list R)) : Prop :=
  (exists us fus, In (us, fus) ev /\ nth_error us i = Some (mx s) /\ nth_error fus i = Some (mfx s)) /\
  (forall us fus f, In (us, fus) ev -> nth_error fus i = Some f -> mfx s <= f).

Lemma mrun_best lg F n a0 b0 maxiter w r w' :
  mrun rel abs_ lg F n a0 b0 maxiter w = (Ok r, w') ->
  length (mr_states r) = n /\
  forall i s, nth_error (mr_states r) i = Some s -> best_at i s (mr_evals r).
Proof.
  intros E. split.
  { unfold mrun in E. apply bind_ok in E as (f0 & w1 & E1 & E). apply evalF_ok in E1 as [_ L].
    apply mloop_evals in E as [_ E]. rewrite map_length in E. rewrite repeat_length in L. lia. }
  eapply (mrun_inv lg F n a0 b0 maxiter (fun ss ev =>
    forall i s, nth_error ss i = Some s -> best_at i s ev)) in E; [apply E| |].
  - intros f0 Lf i s Hi. rewrite nth_error_map in Hi. destruct (nth_error f0 i) as [f|] eqn:Ef; [|discriminate]. injection Hi as <-.
    split.
    + do 2 eexists. split; [left; reflexivity|]. cbn. split; auto.
      assert (Hi' : (i < n)%nat) by (rewrite <- Lf; apply nth_error_Some; congruence).
      now rewrite nth_error_repeat.
    + intros us fus f' [Q|[]] Hf. inversion Q; subst. cbn. rewrite Ef in Hf. inversion Hf. lra.
  - intros ss ev fus H C L i s' Hi. apply zip_update_nth_inv in Hi as (s & f & Hs & Hf & ->).
    destruct (H i s Hs) as [(us0 & fus0 & Hin & Hx & Hfx) Hmin].
    destruct (update_x s f) as [(Le & Ex & Ef & _)|(Lt & Ex & Ef & _)]; split.
    + do 2 eexists. split; [apply in_or_app; right; left; reflexivity|]. rewrite Ex, Ef. split; auto.
      now rewrite nth_error_map, Hs.
    + intros us1 fus1 f1 Hin1 Hf1. rewrite Ef. apply in_app_or in Hin1 as [Hin1|[Q|[]]].
      * specialize (Hmin _ _ _ Hin1 Hf1). lra.
      * inversion Q; subst. rewrite Hf in Hf1. inversion Hf1. lra.
    + exists us0, fus0. rewrite Ex, Ef. split; [apply in_or_app; auto|auto].
    + intros us1 fus1 f1 Hin1 Hf1. rewrite Ef. apply in_app_or in Hin1 as [Hin1|[Q|[]]].
      * eauto.
      * inversion Q; subst. rewrite Hf in Hf1. inversion Hf1. lra.
Qed.
End R.

(** ** Bracketing (C26) *)
Section Bracket.
Variables (rel abs_ : R).
Hypothesis rel_nn : 0 <= rel.
Hypothesis abs_p : 0 < abs_.
Local Notation tol := (tol rel abs_).
Local Notation converged := (converged rel abs_).
Local Notation next_u := (next_u rel abs_).
Local Notation update := (update rel abs_).
Let abs_nn : 0 <= abs_ := Rlt_le _ _ abs_p.

Lemma tol_p (s : mst R) : 0 < tol s.
Proof. rewrite tol_eq. assert (0 <= rel * Rabs (mx s)) by (apply Rmult_le_pos; [lra|apply Rabs_pos]). lra. Qed.

Lemma update_bracket D g t (s : mst R) : unimodal D g t -> D (mx s) -> D (next_u s) ->
  mfx s = g (mx s) -> ma s <= t <= mb s ->
  let s' := update s (g (next_u s)) in mfx s' = g (mx s') /\ ma s' <= t <= mb s' /\ D (mx s').
Proof.
  intros (Dt & Dec & Inc) Dx Du Ef B. assert (Far := next_u_far rel abs_ rel_nn abs_nn s). assert (T := tol_p s).
  assert (NE : next_u s <> mx s) by (intros E; rewrite E, Rminus_eq_0, Rabs_R0 in Far; lra).
  cbv zeta.
  destruct (update_x rel abs_ s (g (next_u s))) as [(Le & -> & -> & [(? & -> & ->)|(? & -> & ->)])|(Lt & -> & -> & [(? & -> & ->)|(? & -> & ->)])];
    rewrite ?Ef in *; (split; [auto|]); (split; [|auto]); split; try lra.
  - destruct (Rle_lt_dec (mx s) t); auto. assert (g (mx s) < g (next_u s)) by (apply Inc; auto; lra). lra.
  - destruct (Rle_lt_dec t (mx s)); auto. assert (g (mx s) < g (next_u s)) by (apply Dec; auto; lra). lra.
  - destruct (Rle_lt_dec t (next_u s)); auto. assert (g (next_u s) < g (mx s)) by (apply Dec; auto; lra). lra.
  - destruct (Rle_lt_dec (next_u s) t); auto. assert (g (next_u s) < g (mx s)) by (apply Inc; auto; lra). lra.
Qed.

Lemma converged_close (s : mst R) t : converged s = true -> ma s <= t <= mb s -> Rabs (mx s - t) < 2 * tol s.
Proof.
  intros C B. apply converged_spec in C. rewrite mid_eq in C. revert C. unfold Rabs at 1 2.
  do 2 destruct (Rcase_abs _); intros; lra.
Qed.

(** Bracketing of a vectorised run; [D] must contain every point visited. *)
Definition bracketed (D : R -> Prop) (g : nat -> R -> R) (t : nat -> R) (i : nat) (s : mst R) : Prop :=
  mfx s = g i (mx s) /\ ma s <= t i <= mb s /\ D (mx s).

Lemma bracketed_step D g t ss fus : (forall i s, nth_error ss i = Some s -> unimodal D (g i) (t i)) ->
  (forall i s, nth_error ss i = Some s -> bracketed D g t i s) ->
  (forall i s, nth_error ss i = Some s -> D (next_u s)) ->
  (forall i s, nth_error ss i = Some s -> nth_error fus i = Some (g i (next_u s))) ->
  forall i s, nth_error (zip_update rel abs_ ss fus) i = Some s -> bracketed D g t i s.
Proof.
  intros U B Dn Hf i s' Hi. apply zip_update_nth_inv in Hi as (s & f & Hs & Hf' & ->).
  rewrite (Hf _ _ Hs) in Hf'. injection Hf' as <-.
  destruct (B _ _ Hs) as (E & Bk & Dx). destruct (update_bracket D (g i) (t i) s) as (E' & Bk' & Dx'); eauto.
  now split.
Qed.

(** One problem, function given on [lo, hi] only. *)
Lemma mloop_single lg F g lo hi t fuel : unimodal (fun x => lo <= x <= hi) g t ->
  (forall x w, lo <= x <= hi -> exists w', F [to_point lg x] w = (Ok [g x], w')) ->
  forall s ev w, ordered s -> lo <= ma s -> mb s <= hi -> mfx s = g (mx s) -> ma s <= t <= mb s ->
  exists r w' s', mloop rel abs_ lg F fuel [s] ev w = (Ok r, w') /\ mr_states r = [s'] /\
    mr_conv r = converged s' /\ ordered s' /\ lo <= ma s' /\ mb s' <= hi /\ ma s' <= t <= mb s'.
Proof.
  intros U A. induction fuel as [|k IH]; intros s ev w O L1 L2 Ef B; cbn [mloop forallb]; rewrite ?andb_true_r;
    destruct (converged s) eqn:C; try (do 3 eexists; split; [reflexivity|]; cbn; split; [reflexivity|]; now rewrite ?C).
  assert (I := next_u_inside rel abs_ rel_nn abs_nn s O C). cbn [map]. unfold bind, evalF, bind. cbn [map].
  destruct (A (next_u s) w) as [w1 ->]; [lra|]. cbn [length Nat.eqb ret].
  destruct (update_ordered rel abs_ rel_nn abs_nn s (g (next_u s)) O C) as (O' & L3 & L4).
  destruct (update_bracket _ g t s U) as (E' & B' & _); auto; try (unfold ordered in O; lra).
  cbn [ret length Nat.eqb]. unfold ret. cbn [zip_update]. apply IH; auto; lra.
Qed.
Lemma mrun_single lg F g lo hi t maxiter w : lo <= hi -> unimodal (fun x => lo <= x <= hi) g t ->
  (forall x w, lo <= x <= hi -> exists w', F [to_point lg x] w = (Ok [g x], w')) ->
  exists r w' s', mrun rel abs_ lg F 1 lo hi maxiter w = (Ok r, w') /\ mr_states r = [s'] /\
    mr_conv r = converged s' /\ ordered s' /\ lo <= ma s' /\ mb s' <= hi /\ ma s' <= t <= mb s'.
Proof.
  intros L U A. unfold mrun. unfold bind, evalF, bind. cbn [repeat map]. cbn [nadd nmul nsub ROps].
  assert (I := init_inside lo hi L). destruct (A (lo + gf2 * (hi - lo)) w) as [w1 ->]; auto.
  cbn [length Nat.eqb]. unfold ret. cbn [map].
  assert (Ut : lo <= t <= hi) by apply U.
  apply mloop_single with (t := t) (g := g) (lo := lo) (hi := hi); auto; unfold ordered; cbn; auto; lra.
Qed.
End Bracket.

(** ** Vectorised runs: how far a problem can leave its bounds (C27) *)
Section Hull.
Variables (rel abs_ lo hi : R).
Hypothesis rel_nn : 0 <= rel.
Hypothesis abs_nn : 0 <= abs_.
Hypothesis lohi : lo <= hi.
Local Notation tol := (tol rel abs_).
Local Notation converged := (converged rel abs_).
Local Notation next_u := (next_u rel abs_).
Local Notation update := (update rel abs_).

Definition excursion (k : nat) : R := (hi - lo) * ((1 + rel) ^ k - 1).

(** the farther end of the interval is at least (almost) one tolerance away *)
Definition far (s : mst R) : Prop := tol s - rel * Rabs (md s) <= Rmax (mx s - ma s) (mb s - mx s).

Definition hull (k : nat) (s : mst R) : Prop :=
  exists l h, l <= lo /\ hi <= h /\ h - l <= (hi - lo) * (1 + rel) ^ k /\
    l <= ma s <= h /\ l <= mb s <= h /\ l <= mx s <= h /\ Rabs (md s) <= h - l /\ far s.

Lemma excursion_mono j k : (j <= k)%nat -> excursion j <= excursion k.
Proof.
  intros L. unfold excursion. apply Rmult_le_compat_l; [lra|].
  assert ((1 + rel) ^ j <= (1 + rel) ^ k) by (apply Rle_pow; [lra|lia]). lra.
Qed.
Lemma excursion_nn k : 0 <= excursion k.
Proof. replace 0 with (excursion 0) by (unfold excursion; cbn; ring). apply excursion_mono. lia. Qed.

Lemma hull_range k l h x : l <= lo -> hi <= h -> h - l <= (hi - lo) * (1 + rel) ^ k ->
  l <= x <= h -> lo - excursion k <= x <= hi + excursion k.
Proof. unfold excursion. intros. lra. Qed.

Lemma tol_lip (s s' : mst R) : tol s' <= tol s + rel * Rabs (mx s' - mx s).
Proof.
  rewrite !tol_eq. assert (Rabs (mx s') <= Rabs (mx s) + Rabs (mx s' - mx s)).
  { replace (mx s') with (mx s + (mx s' - mx s)) at 1 by ring. apply Rabs_triang. }
  assert (rel * Rabs (mx s') <= rel * (Rabs (mx s) + Rabs (mx s' - mx s))) by (apply Rmult_le_compat_l; lra). lra.
Qed.

(** the step goes towards the farther end *)
Lemma next_u_hull s l h : far s -> l <= ma s <= h -> l <= mb s <= h -> l <= mx s <= h ->
  (l <= next_u s <= h + rel * Rabs (md s)) \/ (l - rel * Rabs (md s) <= next_u s <= h).
Proof.
  intros Fa A B X. assert (T := tol_nn rel abs_ rel_nn abs_nn s).
  assert (P : 0 <= rel * Rabs (md s)) by (apply Rmult_le_pos; [lra|apply Rabs_pos]).
  unfold far in Fa. revert Fa. unfold Rmax. destruct (Rle_dec _ _) as [M|M]; intros Fa.
  - destruct (next_u_cases rel abs_ rel_nn abs_nn s) as [[H _]|[[-> H]|[-> H]]]; rewrite ?mid_eq in H; try lra.
  - destruct (next_u_cases rel abs_ rel_nn abs_nn s) as [[H _]|[[-> H]|[-> H]]]; rewrite ?mid_eq in H; lra.
Qed.

Lemma hull_step k s fu : hull k s ->
  hull (S k) (update s fu) /\ lo - excursion (S k) <= next_u s <= hi + excursion (S k).
Proof.
  intros (l & h & L1 & L2 & W & A & B & X & Dd & Fa).
  assert (Far := next_u_far rel abs_ rel_nn abs_nn s).
  assert (Hu := next_u_hull s l h Fa A B X).
  assert (P : 0 <= rel * Rabs (md s) <= rel * (h - l)).
  { split; [apply Rmult_le_pos; [lra|apply Rabs_pos]|apply Rmult_le_compat_l; lra]. }
  assert (E : exists l' h', l' <= l /\ h <= h' /\ h' - l' <= (h - l) + rel * (h - l) /\ l' <= next_u s <= h').
  { destruct Hu; [exists l, (h + rel * Rabs (md s))|exists (l - rel * Rabs (md s)), h]; repeat split; lra. }
  destruct E as (l' & h' & L3 & L4 & W' & U).
  assert (W2 : h' - l' <= (hi - lo) * (1 + rel) ^ S k).
  { cbn [pow]. assert ((1 + rel) * (h - l) <= (1 + rel) * ((hi - lo) * (1 + rel) ^ k)) by (apply Rmult_le_compat_l; lra). lra. }
  split; [|apply hull_range with l' h'; auto; lra].
  exists l', h'. assert (Emd : md (update s fu) = step rel abs_ s) by reflexivity.
  assert (Est : step rel abs_ s = next_u s - mx s) by (unfold M_Minimize.next_u; cbn; ring).
  assert (Hst : Rabs (next_u s - mx s) <= h' - l') by (unfold Rabs; destruct (Rcase_abs _); lra).
  assert (Tl := tol_lip s (update s fu)).
  unfold far. rewrite Emd, Est.
  destruct (update_x rel abs_ s fu) as [(_ & Ex & _ & Hab)|(_ & Ex & _ & Hab)]; rewrite Ex in *.
  - destruct Hab as [(O & -> & ->)|(O & -> & ->)]; repeat split; try lra.
    + eapply Rle_trans; [|apply Rmax_l]. rewrite (Rabs_pos_eq (next_u s - mx s)) in * by lra. lra.
    + eapply Rle_trans; [|apply Rmax_r]. rewrite (Rabs_left (next_u s - mx s)) in * by lra. lra.
  - rewrite Rminus_eq_0, Rabs_R0 in Tl.
    assert (0 <= rel * Rabs (next_u s - mx s)) by (apply Rmult_le_pos; [lra|apply Rabs_pos]).
    destruct Hab as [(O & -> & ->)|(O & -> & ->)]; repeat split; try lra.
    + eapply Rle_trans; [|apply Rmax_r]. rewrite (Rabs_pos_eq (next_u s - mx s)) in * by lra. lra.
    + eapply Rle_trans; [|apply Rmax_l]. rewrite (Rabs_left (next_u s - mx s)) in * by lra. lra.
Qed.

Lemma hull_x k s : hull k s -> lo - excursion k <= mx s <= hi + excursion k.
Proof. intros (l & h & L1 & L2 & W & A & B & X & Dd & Fa). eapply hull_range; eauto. Qed.

Lemma hull_init f : converged (minit lo hi f) = false -> hull 0 (minit lo hi f).
Proof.
  intros C. assert (N : ~ Rabs (mx (minit lo hi f) - mid (minit lo hi f)) < 2 * tol (minit lo hi f) - (mb (minit lo hi f) - mid (minit lo hi f))).
  { rewrite <- converged_spec, C. discriminate. }
  apply Rnot_lt_le in N. assert (I := init_inside lo hi lohi). assert (T := tol_nn rel abs_ rel_nn abs_nn (minit lo hi f)).
  exists lo, hi. unfold far. rewrite mid_eq in N. set (tl := M_Minimize.tol rel abs_ (minit lo hi f)) in *.
  cbn [ma mb mx md minit nadd nmul nsub ROps] in *. cbn [pow]. unfold n0. cbn [nofQ ROps]. rewrite q2r_0, Rabs_R0.
  repeat split; try lra. rewrite Rmult_0_r. revert N. unfold Rabs. destruct (Rcase_abs _); intros; unfold Rmax; destruct (Rle_dec _ _); lra.
Qed.

(** all problems start from the same interval, so they converge at once or not at all *)
Lemma init_all f0 : forallb converged (map (minit lo hi) f0) = false ->
  forall s, In s (map (minit lo hi) f0) -> hull 0 s.
Proof.
  intros C s Hs. apply in_map_iff in Hs as (f & <- & _). apply hull_init.
  destruct (converged (minit lo hi f)) eqn:E; auto.
  enough (forallb converged (map (minit lo hi) f0) = true) by congruence.
  apply forallb_forall. intros s Hs. apply in_map_iff in Hs as (f' & <- & _). exact E.
Qed.

Definition near (k : nat) (x : R) : Prop := lo - excursion k <= x <= hi + excursion k.
Lemma near_mono j k x : (j <= k)%nat -> near j x -> near k x.
Proof. unfold near. intros L. assert (H := excursion_mono j k L). lra. Qed.
Lemma near_init : near 0 (lo + gf2 * (hi - lo)).
Proof. assert (I := init_inside lo hi lohi). assert (E := excursion_nn 0). unfold near. lra. Qed.

Lemma mrun_near lg F n maxiter w r w' : mrun rel abs_ lg F n lo hi maxiter w = (Ok r, w') ->
  forall us fus u, In (us, fus) (mr_evals r) -> In u us -> near (length (mr_evals r) - 1) u.
Proof.
  intros E. unfold mrun in E. apply bind_ok in E as (f0 & w1 & E1 & E). cbn [nadd nmul nsub ROps] in E.
  apply evalF_ok in E1 as [_ L0]. rewrite repeat_length in L0.
  set (xs := repeat (lo + gf2 * (hi - lo)) n) in *.
  assert (H0 : forall u, In u xs -> near 0 u) by (intros u Hu; apply repeat_spec in Hu; subst; apply near_init).
  destruct (forallb converged (map (minit lo hi) f0)) eqn:C.
  { destruct maxiter; cbn [mloop] in E; rewrite C in E; inversion E; subst; cbn.
    all: intros us fus u [Q|[]] Hu; injection Q as <- <-; auto. }
  eapply (mloop_inv rel abs_ lg F (fun ss ev => exists k, length ev = S k /\ (forall s, In s ss -> hull k s) /\
     forall us fus u, In (us, fus) ev -> In u us -> near k u)) in E as [(k & Lk & _ & H) _].
  - rewrite Lk. cbn. now rewrite Nat.sub_0_r.
  - intros ss ev fus (k & Lk & Hh & H) _ L. exists (S k). split; [rewrite app_length; cbn; lia|]. split.
    + intros s' Hs'. apply In_nth_error in Hs' as [i Hi]. apply zip_update_nth_inv in Hi as (s & f & Hs & _ & ->).
      apply hull_step. apply Hh. eapply nth_error_In; eauto.
    + intros us1 fus1 u Hin Hu. apply in_app_or in Hin as [Hin|[Q|[]]].
      * apply near_mono with k; [lia|]. eauto.
      * injection Q as <- <-. apply in_map_iff in Hu as (s & <- & Hs). now apply (hull_step k s 0), Hh.
  - exists 0%nat. split; auto. split; [now apply init_all|].
    intros us1 fus1 u [Q|[]] Hu. injection Q as <- <-. auto.
Qed.

(** Bracketing for vectorised runs, on the slightly larger interval. *)
Hypothesis abs_p : 0 < abs_.
Lemma mloop_vec lg F n K g t : (forall i, (i < n)%nat -> unimodal (near K) (g i) (t i)) ->
  acts_as (fun xs => F (map (to_point lg) xs)) n (near K) g ->
  forall fuel k ss ev w, (k + fuel = K)%nat -> length ss = n -> (forall s, In s ss -> hull k s) ->
  (forall i s, nth_error ss i = Some s -> bracketed (near K) g t i s) ->
  exists r w', mloop rel abs_ lg F fuel ss ev w = (Ok r, w') /\ length (mr_states r) = n /\
    mr_conv r = forallb converged (mr_states r) /\
    forall i s, nth_error (mr_states r) i = Some s -> bracketed (near K) g t i s.
Proof.
  intros U A. induction fuel as [|j IH]; intros k ss ev w EK L Hh B; cbn [mloop];
    destruct (forallb converged ss) eqn:C; try (do 2 eexists; split; [reflexivity|]; cbn; auto).
  assert (Dn : forall s, In s ss -> near K (next_u s)).
  { intros s Hs. apply near_mono with (S k); [lia|]. now apply (hull_step k s 0), Hh. }
  destruct (A (map next_u ss) w) as (fs & w1 & E & Lf & Hf).
  { now rewrite map_length. }
  { intros x Hx. apply in_map_iff in Hx as (s & <- & Hs). auto. }
  unfold bind, evalF, bind. rewrite E. rewrite Lf, map_length, L, Nat.eqb_refl. unfold ret.
  apply IH with (S k); [lia| | |].
  - rewrite zip_update_length; lia.
  - intros s' Hs'. apply In_nth_error in Hs' as [i Hi]. apply zip_update_nth_inv in Hi as (s & f & Hs & _ & ->).
    apply hull_step. apply Hh. eapply nth_error_In; eauto.
  - apply bracketed_step; auto.
    + intros i s Hs. apply U. rewrite <- L. apply nth_error_Some. congruence.
    + intros i s Hs. apply Dn. eapply nth_error_In; eauto.
    + intros i s Hs. apply Hf. now rewrite nth_error_map, Hs.
Qed.

Lemma mrun_vec lg F n K g t w : (forall i, (i < n)%nat -> unimodal (near K) (g i) (t i) /\ lo <= t i <= hi) ->
  acts_as (fun xs => F (map (to_point lg) xs)) n (near K) g ->
  exists r w', mrun rel abs_ lg F n lo hi K w = (Ok r, w') /\ length (mr_states r) = n /\
    mr_conv r = forallb converged (mr_states r) /\
    forall i s, nth_error (mr_states r) i = Some s -> bracketed (near K) g t i s.
Proof.
  intros U A. unfold mrun. cbn [nadd nmul nsub ROps]. set (x0 := lo + gf2 * (hi - lo)).
  assert (D0 : near K x0) by (apply near_mono with 0%nat; [lia|apply near_init]).
  destruct (A (repeat x0 n) w) as (f0 & w1 & E & Lf & Hf).
  { apply repeat_length. } { intros x Hx. apply repeat_spec in Hx. now subst. }
  unfold bind, evalF, bind. rewrite E, Lf, repeat_length, Nat.eqb_refl. unfold ret.
  assert (B0 : forall i s, nth_error (map (minit lo hi) f0) i = Some s -> bracketed (near K) g t i s).
  { intros i s Hi. rewrite nth_error_map in Hi. destruct (nth_error f0 i) as [f|] eqn:Ef; [|discriminate].
    injection Hi as <-. assert (Hi : (i < n)%nat) by (rewrite <- Lf; apply nth_error_Some; congruence).
    rewrite (Hf i x0) in Ef by now rewrite nth_error_repeat. injection Ef as <-.
    destruct (U i Hi). split; [reflexivity|]. split; [exact H0|exact D0]. }
  destruct (forallb converged (map (minit lo hi) f0)) eqn:C.
  { exists (Mres (map (minit lo hi) f0) true [(repeat x0 n, f0)]), w1. cbn. rewrite map_length. split; [|auto].
    destruct K; cbn [mloop]; now rewrite C. }
  apply mloop_vec with (k := 0%nat); auto.
  - intros i Hi. now apply U.
  - now rewrite map_length.
  - now apply init_all.
Qed.
End Hull.

(** ** Statements about [minimize] itself *)

Lemma ln10_p : 0 < ln 10.
Proof. rewrite <- ln_1. apply ln_increasing; lra. Qed.
Lemma pow_log v : 0 < v -> npow10 (nlog10 v) = v.
Proof.
  intros P. cbn. unfold Rpower. assert (H := ln10_p).
  replace (ln v / ln 10 * ln 10) with (ln v) by (field; lra). now apply exp_ln.
Qed.
Lemma pow_le x y : x <= y -> npow10 (V := R) x <= npow10 y.
Proof. intros L. cbn. apply Rle_Rpower; lra. Qed.
Lemma pow_lt x y : x < y -> npow10 (V := R) x < npow10 y.
Proof. intros L. cbn. apply Rpower_lt; lra. Qed.
Lemma log_le x y : 0 < x -> x <= y -> nlog10 x <= nlog10 y.
Proof.
  intros P L. cbn. apply Rmult_le_compat_r; [left; apply Rinv_0_lt_compat, ln10_p|].
  destruct L as [L| ->]; [left; now apply ln_increasing|lra].
Qed.
Lemma pow_p x : 0 < npow10 (V := R) x.
Proof. cbn. apply exp_pos. Qed.
Lemma log_pow x : nlog10 (npow10 (V := R) x) = x.
Proof. cbn. unfold Rpower. rewrite ln_exp. assert (H := ln10_p). field. lra. Qed.

Lemma to_point_range lg lo hi x : (lg = true -> 0 < lo) -> lo <= hi -> lim lg lo <= x <= lim lg hi ->
  lo <= to_point lg x <= hi.
Proof.
  intros P L [X1 X2]. unfold lim, to_point in *. destruct lg; [|auto]. specialize (P eq_refl).
  rewrite <- (pow_log lo) at 1 by auto. rewrite <- (pow_log hi) by lra. split; now apply pow_le.
Qed.
Lemma lim_le (lg : bool) lo hi : (lg = true -> 0 < lo) -> lo <= hi -> lim lg lo <= lim lg hi.
Proof. intros P L. unfold lim. destruct lg; auto. apply log_le; auto. Qed.

Lemma tols_nn prec eps : 0 <= prec -> 0 <= sqrt eps /\ 0 <= prec / 3.
Proof. intros. split; [apply sqrt_pos|lra]. Qed.

Lemma run_unfold F n lo hi prec eps maxiter lg :
  minimize_run F n lo hi prec eps maxiter lg = mrun (sqrt eps) (prec / 3) lg F n (lim lg lo) (lim lg hi) maxiter.
Proof. unfold minimize_run, lim. cbn [nsqrt ndiv nofQ ROps]. now rewrite q2r_3. Qed.

Lemma minimize_inside (F G : list R -> M (list R)) lo hi prec eps maxiter lg w :
  (lg = true -> 0 < lo) -> lo <= hi -> 0 <= prec ->
  (forall x w, lo <= x <= hi -> F [x] w = G [x] w) ->
  minimize F 1 lo hi prec eps maxiter lg w = minimize G 1 lo hi prec eps maxiter lg w.
Proof.
  intros P L Pr A. destruct (tols_nn prec eps Pr) as [R1 R2]. unfold minimize. unfold bind. rewrite !run_unfold.
  rewrite (mrun_agree (sqrt eps) (prec / 3) R1 R2 lg F G (lim lg lo) (lim lg hi)); auto.
  - now apply lim_le.
  - intros x w0 X. apply A. now apply to_point_range.
Qed.

Lemma minimize_result (F : list R -> M (list R)) lo hi prec eps maxiter lg w r w' :
  (lg = true -> 0 < lo) -> lo <= hi -> 0 <= prec ->
  minimize_run F 1 lo hi prec eps maxiter lg w = (Ok r, w') ->
  (exists y, minimize F 1 lo hi prec eps maxiter lg w = (Ok [y], w') /\ lo <= y <= hi) /\
  (length (mr_evals r) <= S maxiter)%nat.
Proof.
  intros P L Pr E. assert (E0 := E). destruct (tols_nn prec eps Pr) as [R1 R2]. rewrite run_unfold in E.
  apply (mrun_inside _ _ R1 R2) in E as ((s & Es & O & L1 & L2) & _ & N); auto using lim_le.
  split; auto. exists (to_point lg (mx s)). split.
  - unfold minimize, bind. rewrite E0. unfold ret. now rewrite Es.
  - unfold ordered in O. apply to_point_range; auto. lra.
Qed.

Lemma minimize_best (F : list R -> M (list R)) n lo hi prec eps maxiter lg w r w' :
  0 <= prec -> minimize_run F n lo hi prec eps maxiter lg w = (Ok r, w') ->
  exists ys, minimize F n lo hi prec eps maxiter lg w = (Ok ys, w') /\ length ys = n /\
  forall i y, nth_error ys i = Some y ->
    exists us0 fus0 u0 f0, In (us0, fus0) (mr_evals r) /\ nth_error us0 i = Some u0 /\ nth_error fus0 i = Some f0 /\
      y = to_point lg u0 /\
      forall us fus f, In (us, fus) (mr_evals r) -> nth_error fus i = Some f -> f0 <= f.
Proof.
  intros Pr E. assert (E0 := E). destruct (tols_nn prec eps Pr) as [R1 R2]. rewrite run_unfold in E.
  apply (mrun_best _ _) in E as [Ln B].
  exists (map (fun s => to_point lg (mx s)) (mr_states r)). split; [|split].
  - unfold minimize, bind. now rewrite E0.
  - now rewrite map_length.
  - intros i y Hi. rewrite nth_error_map in Hi. destruct (nth_error (mr_states r) i) as [s|] eqn:Es; [|discriminate].
    injection Hi as <-. destruct (B i s Es) as [(us & fus & H1 & H2 & H3) H4].
    exists us, fus, (mx s), (mfx s). auto 6.
Qed.

(** C26, one problem: the points of the function, not of the search. *)
Lemma minimize_unimodal (F : list R -> M (list R)) g lo hi t prec eps maxiter lg w :
  (lg = true -> 0 < lo) -> lo <= hi -> 0 < prec ->
  unimodal (fun x => lo <= x <= hi) g t ->
  (forall x w, lo <= x <= hi -> exists w', F [x] w = (Ok [g x], w')) ->
  exists r w' y b, minimize_run F 1 lo hi prec eps maxiter lg w = (Ok r, w') /\
    minimize F 1 lo hi prec eps maxiter lg w = (Ok [y], w') /\
    mr_states r = [b] /\
    to_point lg (ma b) <= t <= to_point lg (mb b) /\ to_point lg (ma b) <= y <= to_point lg (mb b) /\
    (mr_conv r = true -> Rabs (lim lg y - lim lg t) < 2 * (sqrt eps * Rabs (lim lg y) + prec / 3)).
Proof.
  intros P L Pr U A. destruct (tols_nn prec eps (Rlt_le _ _ Pr)) as [R1 R2].
  assert (Ut : lo <= t <= hi) by apply U.
  assert (Ll := lim_le lg lo hi P L).
  assert (mono : forall x y, x < y -> to_point lg x < to_point lg y).
  { intros x y XY. unfold to_point. destruct lg; auto. now apply pow_lt. }
  assert (mono' : forall x y, x <= y -> to_point lg x <= to_point lg y).
  { intros x y [XY| ->]; [left; auto|right; auto]. }
  assert (inv : to_point lg (lim lg t) = t).
  { unfold to_point, lim. destruct lg; auto. apply pow_log. specialize (P eq_refl). lra. }
  assert (inv' : forall x, lim lg (to_point lg x) = x).
  { intros x. unfold to_point, lim. destruct lg; auto. apply log_pow. }
  assert (Lt : lim lg lo <= lim lg t <= lim lg hi).
  { split; apply lim_le; try tauto. intros Hl. specialize (P Hl). lra. }
  assert (U' : unimodal (fun x => lim lg lo <= x <= lim lg hi) (fun x => g (to_point lg x)) (lim lg t)).
  { destruct U as (_ & Dec & Inc). split; [auto|]. split.
    - intros x y X Y XY Yt. apply Dec; auto using to_point_range. rewrite <- inv. auto.
    - intros x y X Y Xt XY. apply Inc; auto using to_point_range. rewrite <- inv. auto. }
  destruct (mrun_single (sqrt eps) (prec / 3) R1 ltac:(lra) lg F _ (lim lg lo) (lim lg hi) (lim lg t) maxiter w Ll U')
    as (r & w' & s & E & Es & Ec & O & L1 & L2 & B).
  { intros x w0 X. apply A. now apply to_point_range. }
  assert (E' : minimize_run F 1 lo hi prec eps maxiter lg w = (Ok r, w')) by (rewrite run_unfold; exact E).
  exists r, w', (to_point lg (mx s)), s. split; [exact E'|]. split.
  { unfold minimize, bind. rewrite E'. unfold ret. now rewrite Es. }
  split; [exact Es|]. rewrite <- inv at 1 2. unfold ordered in O.
  split; [split; apply mono'; lra|]. split; [split; apply mono'; lra|].
  intros C. rewrite Ec in C. rewrite inv'. apply converged_close with (t := lim lg t) in C; auto.
Qed.

(** C27: vectorised calls. [r] is the relative tolerance. *)

Lemma minimize_overshoot (F : list R -> M (list R)) n lo hi prec eps maxiter lg w r w' :
  (lg = true -> 0 < lo) -> lo <= hi -> 0 <= prec ->
  minimize_run F n lo hi prec eps maxiter lg w = (Ok r, w') ->
  (length (mr_evals r) <= S maxiter)%nat /\
  forall us fus u, In (us, fus) (mr_evals r) -> In u us ->
    lim lg lo - overshoot (lim lg lo) (lim lg hi) (sqrt eps) (length (mr_evals r) - 1) <= u <=
    lim lg hi + overshoot (lim lg lo) (lim lg hi) (sqrt eps) (length (mr_evals r) - 1).
Proof.
  intros P L Pr E. destruct (tols_nn prec eps Pr) as [R1 R2]. rewrite run_unfold in E. split.
  - unfold mrun in E. apply bind_ok in E as (f0 & w1 & _ & E). apply mloop_evals in E as [E _]. cbn in E. lia.
  - intros us fus u H1 H2. eapply mrun_near in E; eauto using lim_le.
Qed.

Lemma minimize_vec (F : list R -> M (list R)) n g t lo hi prec eps maxiter lg w :
  (lg = true -> 0 < lo) -> lo <= hi -> 0 < prec ->
  (forall i, (i < n)%nat -> lo <= t i <= hi /\ unimodal (fun x => lg = true -> 0 < x) (g i) (t i)) ->
  acts_as F n (fun x => lg = true -> 0 < x) g ->
  exists r w' ys, minimize_run F n lo hi prec eps maxiter lg w = (Ok r, w') /\
    minimize F n lo hi prec eps maxiter lg w = (Ok ys, w') /\ length ys = n /\
    (mr_conv r = true -> forall i y, nth_error ys i = Some y ->
       Rabs (lim lg y - lim lg (t i)) < 2 * (sqrt eps * Rabs (lim lg y) + prec / 3)).
Proof.
  intros P L Pr U A. destruct (tols_nn prec eps (Rlt_le _ _ Pr)) as [R1 R2].
  assert (Ll := lim_le lg lo hi P L).
  assert (mono : forall x y, x < y -> to_point lg x < to_point lg y).
  { intros x y XY. unfold to_point. destruct lg; auto. now apply pow_lt. }
  assert (inv' : forall x, lim lg (to_point lg x) = x).
  { intros x. unfold to_point, lim. destruct lg; auto. apply log_pow. }
  assert (pos : forall x, lg = true -> 0 < to_point lg x).
  { intros x ->. apply pow_p. }
  assert (Ut : forall i, (i < n)%nat -> lim lg lo <= lim lg (t i) <= lim lg hi /\ to_point lg (lim lg (t i)) = t i).
  { intros i Hi. destruct (U i Hi) as [Ti _]. split.
    - split; apply lim_le; try tauto. intros Hl. specialize (P Hl). lra.
    - unfold to_point, lim. destruct lg; auto. apply pow_log. specialize (P eq_refl). lra. }
  destruct (mrun_vec (sqrt eps) (prec / 3) (lim lg lo) (lim lg hi) R1 R2 Ll ltac:(lra) lg F n maxiter
    (fun i x => g i (to_point lg x)) (fun i => lim lg (t i)) w) as (r & w' & E & Ln & Ec & B).
  - intros i Hi. destruct (U i Hi) as [Ti (_ & Dec & Inc)]. destruct (Ut i Hi) as [Tl Ti'].
    split; [|exact Tl]. split.
    + apply near_mono with (j := 0%nat); try lra; [lia|]. assert (En := excursion_nn (sqrt eps) (lim lg lo) (lim lg hi) R1 Ll 0). unfold near. lra.
    + split; intros x y _ _; intros XY YT; [apply Dec|apply Inc]; auto; rewrite <- Ti'.
      * destruct YT as [YT| ->]; [left; auto|right; auto].
      * destruct XY as [XY| ->]; [left; auto|right; auto].
  - intros xs w0 Lx _. destruct (A (map (to_point lg) xs) w0) as (fs & w1 & E & Lf & Hf).
    + now rewrite map_length.
    + intros x Hx. apply in_map_iff in Hx as (z & <- & _). apply pos.
    + exists fs, w1. split; auto. split; auto. intros i x Hi. apply Hf. now rewrite nth_error_map, Hi.
  - assert (E' : minimize_run F n lo hi prec eps maxiter lg w = (Ok r, w')) by (rewrite run_unfold; exact E).
    exists r, w', (map (fun s => to_point lg (mx s)) (mr_states r)). split; [exact E'|]. split; [|split].
    + unfold minimize, bind. now rewrite E'.
    + now rewrite map_length.
    + intros C i y Hi. rewrite nth_error_map in Hi. destruct (nth_error (mr_states r) i) as [s|] eqn:Es; [|discriminate].
      injection Hi as <-. rewrite inv'. rewrite Ec in C.
      apply converged_close with (t := lim lg (t i)).
      * rewrite forallb_forall in C. apply C. eapply nth_error_In; eauto.
      * now apply (B i s Es).
Qed.

(** Two problems on [-38, 62]: the first converges at once and then leaves. *)
Lemma step_golden (rel abs_ : R) (s : mst R) : 0 <= rel -> 0 <= abs_ -> me s = 0 ->
  step rel abs_ s = fin rel abs_ s (gf2 * ((if Rle_bool (mid s) (mx s) then ma s else mb s) - mx s)).
Proof.
  intros R1 R2 E. assert (T := tol_nn rel abs_ R1 R2 s). unfold step, fin. rewrite tol2_eq, E.
  cbn [nltb nabs ROps]. rewrite Rabs_R0. rewrite (Rlt_bool_false (tol rel abs_ s) 0) by lra. cbn [andb].
  cbn [nltb nleb nmul nsub nadd nneg ROps]. unfold n0. cbn [nofQ ROps]. rewrite q2r_0. reflexivity.
Qed.

Definition leave_F (xs : list R) : M (list R) := fun w => (Ok (match xs with [x; y] => [- x; y] | _ => xs end), w).


Lemma leave_step k s1 s2 ev w : converged 2 (/ 100) s1 && converged 2 (/ 100) s2 = false ->
  exists ev', mloop 2 (/ 100) false leave_F (S k) [s1; s2] ev w =
  mloop 2 (/ 100) false leave_F k [update 2 (/ 100) s1 (- next_u 2 (/ 100) s1); update 2 (/ 100) s2 (next_u 2 (/ 100) s2)] ev' w.
Proof.
  intros C. cbn [mloop forallb]. rewrite andb_true_r, C. eexists.
  unfold bind, evalF, bind, leave_F. cbn [map to_point length Nat.eqb]. unfold ret. cbn [zip_update]. reflexivity.
Qed.

Lemma leave_bounds : exists y z w', minimize leave_F 2 (-38) 62 (3 / 100) 4 2 false (fun _ => 0%nat) = (Ok [y; z], w') /\ 71 < y.
Proof.
  unfold minimize, bind. rewrite run_unfold. unfold lim.
  replace (sqrt 4) with 2 by (replace 4 with (2 * 2) by ring; rewrite sqrt_square; lra).
  replace (3 / 100 / 3) with (/ 100) by lra.
  set (g := gf2 (V := R)).
  assert (GG : g * g = 3 * g - 1).
  { unfold g. rewrite gf2_eq. assert (H := sqrt_sqrt 5 ltac:(lra)). nra. }
  assert (G : 0.3819 < g < 0.382).
  { unfold g. rewrite gf2_eq. assert (H := sqrt_sqrt 5 ltac:(lra)). assert (P := sqrt_pos 5). split.
    - destruct (Rlt_le_dec (sqrt 5) 2.2361); [lra|]. assert (2.2361 * 2.2361 <= sqrt 5 * sqrt 5) by (apply Rmult_le_compat; lra). lra.
    - destruct (Rlt_le_dec 2.236 (sqrt 5)); [lra|]. assert (sqrt 5 * sqrt 5 <= 2.236 * 2.236) by (apply Rmult_le_compat; lra). lra. }
  assert (E0 : mrun 2 (/ 100) false leave_F 2 (-38) 62 2 (fun _ => 0%nat) =
    let x0 := -38 + g * (62 - -38) in
    mloop 2 (/ 100) false leave_F 2 [minit (-38) 62 (- x0); minit (-38) 62 x0] [([x0; x0], [- x0; x0])] (fun _ => 0%nat)).
  { reflexivity. }
  rewrite E0. cbv zeta. clear E0. set (x0 := -38 + g * (62 - -38)).
  assert (X0 : 0 < x0 < 1 / 5 + 1 / 10) by (unfold x0; lra).
  assert (init : forall f, ma (minit (-38) 62 f) = -38 /\ mb (minit (-38) 62 f) = 62 /\ mx (minit (-38) 62 f) = x0 /\
                           me (minit (-38) 62 f) = 0 /\ md (minit (-38) 62 f) = 0 /\ mfx (minit (-38) 62 f) = f).
  { intros f. cbn. unfold n0. cbn. rewrite q2r_0. auto 6. }
  assert (N : forall f, next_u 2 (/ 100) (minit (-38) 62 f) = 62 - 100 * g).
  { intros f. destruct (init f) as (A & B & X & Ee & Dd & _). unfold next_u. rewrite step_golden by lra.
    unfold fin. rewrite tol_eq, mid_eq, A, B, X. rewrite (Rabs_pos_eq x0) by lra. cbn [nadd ROps]. rewrite ?X.
    rewrite (Rle_bool_false _ x0) by lra. fold g.
    assert (P : g * (62 - x0) = 100 - 200 * g) by (unfold x0; nra). rewrite P.
    rewrite (Rlt_bool_false (_ - -38)) by (unfold x0; lra). rewrite (Rlt_bool_false (62 - _)) by (unfold x0; lra). cbn [orb].
    rewrite (Rlt_bool_false (Rabs _)) by (rewrite Rabs_pos_eq; unfold x0; lra). unfold x0; lra. }
  set (u := 62 - 100 * g) in *. assert (U : 23.8 <= u <= 23.81) by (unfold u; lra).
  assert (C0 : forall f, converged 2 (/ 100) (minit (-38) 62 f) = false).
  { intros f. destruct (init f) as (A & B & X & Ee & Dd & _). apply not_true_is_false. rewrite converged_spec, tol_eq, mid_eq, A, B, X.
    rewrite (Rabs_pos_eq x0) by lra. rewrite Rabs_left by lra. lra. }
  destruct (leave_step 1 (minit (-38) 62 (- x0)) (minit (-38) 62 x0) [([x0; x0], [- x0; x0])] (fun _ => 0%nat)) as [ev1 ->].
  { now rewrite C0. }
  rewrite !N.
  set (s1 := update _ _ (minit _ _ (- x0)) _). set (s2 := update _ _ (minit _ _ x0) _).
  assert (S1 : ma s1 = x0 /\ mb s1 = 62 /\ mx s1 = u /\ mfx s1 = - u).
  { unfold s1. destruct (init (- x0)) as (A & B & X & Ee & Dd & Ff).
    destruct (update_x 2 (/ 100) (minit (-38) 62 (- x0)) (- u)) as [(_ & -> & -> & [(H & -> & ->)|(H & -> & ->)])|(H & _)];
      rewrite ?N, ?X, ?A, ?B, ?Ff in *; auto; lra. }
  assert (M1 : me s1 = 0) by (unfold s1; cbn; apply q2r_0).
  assert (S2 : ma s2 = -38 /\ mb s2 = u /\ mx s2 = x0).
  { unfold s2. destruct (init x0) as (A & B & X & Ee & Dd & Ff).
    destruct (update_x 2 (/ 100) (minit (-38) 62 x0) u) as [(H & _)|(_ & -> & _ & [(H & -> & ->)|(H & -> & ->)])];
      rewrite ?N, ?X, ?A, ?B, ?Ff in *; auto; lra. }
  assert (C2 : converged 2 (/ 100) s2 = false).
  { destruct S2 as (A & B & X). apply not_true_is_false. rewrite converged_spec, tol_eq, mid_eq, A, B, X.
    rewrite !Rabs_pos_eq by lra. lra. }
  destruct (leave_step 0 s1 s2 ev1 (fun _ => 0%nat)) as [ev2 ->].
  { rewrite C2. apply andb_false_r. }
  assert (N1 : next_u 2 (/ 100) s1 = 3 * u + / 100).
  { destruct S1 as (A & B & X & _). unfold next_u. rewrite step_golden by lra.
    unfold fin. rewrite tol_eq, mid_eq, A, B, X. rewrite (Rabs_pos_eq u) by lra. cbn [nadd ROps]. rewrite ?X.
    rewrite (Rle_bool_false _ u) by lra. fold g.
    assert (P : g * (62 - u) = 300 * g - 100) by (unfold u; nra). rewrite P.
    rewrite (Rlt_bool_true (_ - x0)) by lra. cbn [orb]. rewrite (Rlt_bool_true u) by lra.
    rewrite (Rlt_bool_false (Rabs _)) by (rewrite Rabs_pos_eq; lra). lra. }
  set (s1' := update _ _ s1 _). set (s2' := update _ _ s2 _).
  assert (X1 : mx s1' = 3 * u + / 100).
  { unfold s1'. destruct S1 as (A & B & X & Ff).
    destruct (update_x 2 (/ 100) s1 (- next_u 2 (/ 100) s1)) as [(_ & -> & _)|(H & _)]; auto. rewrite Ff, N1 in H. lra. }
  exists (mx s1'), (mx s2'), (fun _ => 0%nat). split; [|lra].
  cbn [mloop]. destruct (forallb _ _); reflexivity.
Qed.

(** ** Convergence of a single problem *)
Section Conv.
Variables (rel abs_ : R).
Hypothesis rel_nn : 0 <= rel.
Hypothesis abs_p : 0 < abs_.
Local Notation tol := (tol rel abs_).
Local Notation converged := (converged rel abs_).
Local Notation next_u := (next_u rel abs_).
Local Notation update := (update rel abs_).

Definition gaps (s : mst R) : Prop := ma s + abs_ <= mx s /\ mx s + abs_ <= mb s.

Lemma tol_ge (s : mst R) : abs_ <= tol s.
Proof. rewrite tol_eq. assert (0 <= rel * Rabs (mx s)) by (apply Rmult_le_pos; [lra|apply Rabs_pos]). lra. Qed.

Lemma gaps_step s fu : gaps s -> converged s = false ->
  gaps (update s fu) /\ mb (update s fu) - ma (update s fu) <= mb s - ma s - abs_.
Proof.
  intros [G1 G2] C. assert (N : ~ Rabs (mx s - mid s) < 2 * tol s - (mb s - mid s)) by (rewrite <- converged_spec, C; discriminate).
  apply Rnot_lt_le in N. assert (T := tol_ge s).
  assert (Far := next_u_far rel abs_ rel_nn (Rlt_le _ _ abs_p) s).
  assert (U : ma s + abs_ <= next_u s /\ next_u s + abs_ <= mb s).
  { rewrite mid_eq in N. destruct (next_u_cases rel abs_ rel_nn (Rlt_le _ _ abs_p) s) as [[H _]|[[-> H]|[-> H]]]; [lra| |];
    rewrite ?mid_eq in H; revert N; unfold Rabs; destruct (Rcase_abs _); intros; lra. }
  unfold gaps.
  destruct (update_x rel abs_ s fu) as [(_ & -> & _ & [(D & -> & ->)|(D & -> & ->)])|(_ & -> & _ & [(D & -> & ->)|(D & -> & ->)])];
    revert Far; unfold Rabs; destruct (Rcase_abs _); intros; lra.
Qed.

Lemma mloop_conv lg F fuel s ev w r w' : gaps s -> mb s - ma s <= INR fuel * abs_ ->
  mloop rel abs_ lg F fuel [s] ev w = (Ok r, w') -> mr_conv r = true.
Proof.
  revert s ev w. induction fuel as [|k IH]; intros s ev w G L E; cbn [mloop forallb] in E; rewrite andb_true_r in E;
    destruct (converged s) eqn:C; try (now inversion E).
  - cbn in L. unfold gaps in G. lra.
  - apply bind_ok in E as (fus & w1 & E1 & E2). apply evalF_ok in E1 as [_ Lf]. cbn in Lf.
    destruct fus as [|f [|]]; try discriminate. cbn [zip_update] in E2.
    destruct (gaps_step s f G C) as [G' L']. eapply IH in E2; eauto. rewrite S_INR in L. lra.
Qed.

Lemma mrun_conv lg F a0 b0 maxiter w r w' : a0 <= b0 -> b0 - a0 <= INR maxiter * abs_ ->
  mrun rel abs_ lg F 1 a0 b0 maxiter w = (Ok r, w') -> mr_conv r = true.
Proof.
  intros L N E. unfold mrun in E. apply bind_ok in E as (f0 & w1 & E1 & E2). apply evalF_ok in E1 as [_ Lf].
  cbn in Lf. destruct f0 as [|f [|]]; try discriminate. cbn [map] in E2.
  destruct (converged (minit a0 b0 f)) eqn:C.
  - destruct maxiter; cbn [mloop forallb] in E2; rewrite C in E2; cbn in E2; now inversion E2.
  - eapply mloop_conv in E2; eauto.
    assert (X : ~ Rabs (mx (minit a0 b0 f) - mid (minit a0 b0 f)) < 2 * tol (minit a0 b0 f) - (mb (minit a0 b0 f) - mid (minit a0 b0 f)))
      by (rewrite <- converged_spec, C; discriminate).
    apply Rnot_lt_le in X. assert (T := tol_ge (minit a0 b0 f)).
    assert (M3 : / 3 < gf2 (V := R)).
    { rewrite gf2_eq. assert (H := sqrt_sqrt 5 ltac:(lra)). assert (P := sqrt_pos 5).
      destruct (Rlt_le_dec (sqrt 5) (7 / 3)); [lra|]. assert (7 / 3 * (7 / 3) <= sqrt 5 * sqrt 5) by (apply Rmult_le_compat; lra). lra. }
    destruct gf2_range as [_ M2]. revert X T. rewrite mid_eq. unfold gaps. cbn -[gf2 M_Minimize.tol].
    set (t := tol _). clearbody t.
    assert (P1 : / 3 * (b0 - a0) <= gf2 * (b0 - a0)) by (apply Rmult_le_compat_r; lra).
    assert (P2 : gf2 * (b0 - a0) <= / 2 * (b0 - a0)) by (apply Rmult_le_compat_r; lra).
    rewrite Rabs_left1 by lra. intros. lra.
Qed.
End Conv.

Lemma minimize_conv (F : list R -> M (list R)) lo hi prec eps maxiter lg w r w' :
  (lg = true -> 0 < lo) -> lo <= hi -> 0 < prec -> lim lg hi - lim lg lo <= INR maxiter * (prec / 3) ->
  minimize_run F 1 lo hi prec eps maxiter lg w = (Ok r, w') -> mr_conv r = true.
Proof.
  intros P L Pr N E. rewrite run_unfold in E. apply (mrun_conv (sqrt eps) (prec / 3)) in E; auto using lim_le, sqrt_pos. lra.
Qed.

(** ** The excursion for small relative tolerances *)
Lemma pow_small r k : 0 <= r -> 2 * INR k * r <= 1 -> (1 + r) ^ k <= 1 + 2 * INR k * r.
Proof.
  intros P. induction k as [|k IH]; intros S.
  - cbn. lra.
  - rewrite S_INR in *. assert (K := pos_INR k). assert (0 <= INR k * r) by (apply Rmult_le_pos; lra).
    specialize (IH ltac:(lra)). cbn [pow].
    assert ((1 + r) * (1 + r) ^ k <= (1 + r) * (1 + 2 * INR k * r)) by (apply Rmult_le_compat_l; lra).
    assert (2 * INR k * r * r <= 1 * r) by (apply Rmult_le_compat_r; lra). lra.
Qed.

Lemma overshoot_small lo hi r k : lo <= hi -> 0 <= r -> 2 * INR k * r <= 1 ->
  overshoot lo hi r k <= (hi - lo) * (2 * INR k * r).
Proof. intros L P S. unfold overshoot. apply Rmult_le_compat_l; [lra|]. assert (H := pow_small r k P S). lra. Qed.

Lemma minimize_overshoot_small (F : list R -> M (list R)) n lo hi prec eps maxiter lg w r w' :
  (lg = true -> 0 < lo) -> lo <= hi -> 0 <= prec -> 2 * INR maxiter * sqrt eps <= 1 ->
  minimize_run F n lo hi prec eps maxiter lg w = (Ok r, w') ->
  forall us fus u, In (us, fus) (mr_evals r) -> In u us ->
    lim lg lo - (lim lg hi - lim lg lo) * (2 * INR maxiter * sqrt eps) <= u <=
    lim lg hi + (lim lg hi - lim lg lo) * (2 * INR maxiter * sqrt eps).
Proof.
  intros P L Pr S E us fus u H1 H2. destruct (minimize_overshoot F n lo hi prec eps maxiter lg w r w' P L Pr E) as [K B].
  specialize (B _ _ _ H1 H2). assert (Ll := lim_le lg lo hi P L). assert (Sp := sqrt_pos eps).
  set (k := (length (mr_evals r) - 1)%nat) in *. assert (Kk : INR k <= INR maxiter) by (apply le_INR; lia).
  assert (M1 : 2 * INR k * sqrt eps <= 2 * INR maxiter * sqrt eps) by (apply Rmult_le_compat_r; lra).
  assert (O := overshoot_small (lim lg lo) (lim lg hi) (sqrt eps) k Ll Sp ltac:(lra)).
  assert ((lim lg hi - lim lg lo) * (2 * INR k * sqrt eps) <= (lim lg hi - lim lg lo) * (2 * INR maxiter * sqrt eps))
    by (apply Rmult_le_compat_l; lra). lra.
Qed.
