(** The vectorised search for functions whose minimum lies inside the limits or below
    them, element by element: C91. *)
From Coq Require Import Reals QArith Qreals Lra Lia.
From Flocq Require Import Core.
From Verif Require Import M_Base M_Num M_NumR M_Nd M_RandVar M_Latent M_Minimize M_Device S_Minimize S_Device S_DeviceR S_Search
  L_Base L_Minimize L_Nd L_Device L_Device2 L_DeviceR L_Rising L_Search.
Open Scope R_scope.

(** Like [unimodal], but the minimum need not be one of the points. *)
Definition valley (D : R -> Prop) (g : R -> R) (t : R) : Prop :=
  (forall x y, D x -> D y -> x < y -> y <= t -> g y < g x) /\
  (forall x y, D x -> D y -> t <= x -> x < y -> g x < g y).

Section Mixed.
Variables (rel abs_ lo hi : R).
Hypothesis rel_nn : 0 <= rel.
Hypothesis abs_p : 0 < abs_.
Hypothesis lohi : lo <= hi.
Local Notation tol := (tol rel abs_).
Local Notation converged := (converged rel abs_).
Local Notation next_u := (next_u rel abs_).
Local Notation update := (update rel abs_).
Local Notation near := (near rel lo hi).
Local Notation hull := (hull rel abs_ lo hi).
Let abs_nn : 0 <= abs_ := Rlt_le _ _ abs_p.

(** Inside: the minimum stays bracketed.  Below: the left end never passes the lower limit. *)
Definition tracked (K : nat) (g : nat -> R -> R) (t : nat -> R) (i : nat) (s : mst R) : Prop :=
  mfx s = g i (mx s) /\ near K (mx s) /\ (lo <= t i -> ma s <= t i <= mb s) /\ (t i < lo -> ma s <= lo).

Lemma tracked_step K g t i s : valley (near K) (g i) (t i) -> near K (next_u s) -> tracked K g t i s ->
  tracked K g t i (update s (g i (next_u s))).
Proof.
  intros (Dec & Inc) Du (Ef & Dx & B & L).
  assert (Far := next_u_far rel abs_ rel_nn abs_nn s). assert (T := tol_p rel abs_ rel_nn abs_p s).
  assert (NE : next_u s <> mx s) by (intros E; rewrite E, Rminus_eq_0, Rabs_R0 in Far; lra).
  unfold tracked.
  destruct (update_x rel abs_ s (g i (next_u s))) as [(Le & -> & -> & [(? & -> & ->)|(? & -> & ->)])|(Lt & -> & -> & [(? & -> & ->)|(? & -> & ->)])];
    rewrite ?Ef in *; (split; [auto|]); (split; [auto|]).
  - assert (mx s <= t i) by (destruct (Rle_lt_dec (mx s) (t i)); auto; assert (g i (mx s) < g i (next_u s)) by (apply Inc; auto; lra); lra).
    split; [intros Q; specialize (B Q)|intros Q; specialize (L Q)]; lra.
  - assert (t i <= mx s) by (destruct (Rle_lt_dec (t i) (mx s)); auto; assert (g i (mx s) < g i (next_u s)) by (apply Dec; auto; lra); lra).
    split; [intros Q; specialize (B Q)|intros Q; specialize (L Q)]; lra.
  - assert (t i <= next_u s) by (destruct (Rle_lt_dec (t i) (next_u s)); auto; assert (g i (next_u s) < g i (mx s)) by (apply Dec; auto; lra); lra).
    split; [intros Q; specialize (B Q)|intros Q; specialize (L Q)]; lra.
  - assert (next_u s <= t i) by (destruct (Rle_lt_dec (next_u s) (t i)); auto; assert (g i (next_u s) < g i (mx s)) by (apply Inc; auto; lra); lra).
    split; [intros Q; specialize (B Q)|intros Q; specialize (L Q)]; lra.
Qed.

Lemma mloop_mixed lg F n K g t : (forall i, (i < n)%nat -> valley (near K) (g i) (t i)) ->
  acts_as (fun xs => F (map (to_point lg) xs)) n (near K) g ->
  forall fuel k ss ev w, (k + fuel = K)%nat -> length ss = n -> (forall s, In s ss -> hull k s) ->
  (forall i s, nth_error ss i = Some s -> tracked K g t i s) ->
  exists r w', mloop rel abs_ lg F fuel ss ev w = (Ok r, w') /\ length (mr_states r) = n /\
    mr_conv r = forallb converged (mr_states r) /\
    forall i s, nth_error (mr_states r) i = Some s -> tracked K g t i s.
Proof.
  intros U A. induction fuel as [|j IH]; intros k ss ev w EK L Hh B; cbn [mloop];
    destruct (forallb converged ss) eqn:C; try (do 2 eexists; split; [reflexivity|]; cbn; auto).
  assert (Dn : forall s, In s ss -> near K (next_u s)).
  { intros s Hs. apply near_mono with (S k); auto; [lia|]. now apply (hull_step rel abs_ lo hi rel_nn abs_nn k s 0), Hh. }
  destruct (A (map next_u ss) w) as (fs & w1 & E & Lf & Hf).
  { now rewrite map_length. }
  { intros x Hx. apply in_map_iff in Hx as (s & <- & Hs). auto. }
  unfold bind, evalF, bind. rewrite E. rewrite Lf, map_length, L, Nat.eqb_refl. unfold ret.
  apply IH with (S k); [lia| | |].
  - rewrite zip_update_length; lia.
  - intros s' Hs'. apply In_nth_error in Hs' as [i Hi]. apply zip_update_nth_inv in Hi as (s & f & Hs & _ & ->).
    apply hull_step; auto. apply Hh. eapply nth_error_In; eauto.
  - intros i s' Hi. apply zip_update_nth_inv in Hi as (s & f & Hs & Hf' & ->).
    rewrite (Hf i (next_u s)) in Hf' by now rewrite nth_error_map, Hs. injection Hf' as <-.
    apply tracked_step.
    + apply U. rewrite <- L. apply nth_error_Some. congruence.
    + apply Dn. eapply nth_error_In; eauto.
    + now apply B.
Qed.

Lemma mrun_mixed lg F n K g t w : (forall i, (i < n)%nat -> valley (near K) (g i) (t i) /\ t i <= hi) ->
  acts_as (fun xs => F (map (to_point lg) xs)) n (near K) g ->
  exists r w', mrun rel abs_ lg F n lo hi K w = (Ok r, w') /\ length (mr_states r) = n /\
    mr_conv r = forallb converged (mr_states r) /\
    forall i s, nth_error (mr_states r) i = Some s -> tracked K g t i s.
Proof.
  intros U A. unfold mrun. cbn [nadd nmul nsub ROps]. set (x0 := lo + gf2 * (hi - lo)).
  assert (D0 : near K x0) by (apply near_mono with 0%nat; auto; [lia|now apply near_init]).
  destruct (A (repeat x0 n) w) as (f0 & w1 & E & Lf & Hf).
  { apply repeat_length. } { intros x Hx. apply repeat_spec in Hx. now subst. }
  unfold bind, evalF, bind. rewrite E, Lf, repeat_length, Nat.eqb_refl. unfold ret.
  assert (B0 : forall i s, nth_error (map (minit lo hi) f0) i = Some s -> tracked K g t i s).
  { intros i s Hi. rewrite nth_error_map in Hi. destruct (nth_error f0 i) as [f|] eqn:Ef; [|discriminate].
    injection Hi as <-. assert (Hi : (i < n)%nat) by (rewrite <- Lf; apply nth_error_Some; congruence).
    rewrite (Hf i x0) in Ef by now rewrite nth_error_repeat. injection Ef as <-. destruct (U i Hi) as [_ Ti].
    split; [reflexivity|]. split; [exact D0|]. change (ma (minit lo hi (g i x0))) with lo. change (mb (minit lo hi (g i x0))) with hi. lra. }
  destruct (forallb converged (map (minit lo hi) f0)) eqn:C.
  { exists (Mres (map (minit lo hi) f0) true [(repeat x0 n, f0)]), w1. cbn. rewrite map_length. split; [|auto].
    destruct K; cbn [mloop]; now rewrite C. }
  apply mloop_mixed with (k := 0%nat); auto.
  - intros i Hi. now apply U.
  - now rewrite map_length.
  - now apply init_all.
Qed.

Lemma tracked_close K g t i s : tracked K g t i s -> converged s = true ->
  (lo <= t i -> Rabs (mx s - t i) < 2 * tol s) /\ (t i < lo -> mx s < lo + 2 * tol s).
Proof.
  intros (_ & _ & B & L) C. split; intros Q.
  - apply converged_close; auto.
  - specialize (L Q). apply converged_spec in C. rewrite mid_eq in C. assert (P := Rle_abs (mx s - (ma s + mb s) / 2)).
    assert (P2 := Rle_abs (mx s - (mb s + ma s) / 2)). lra.
Qed.
End Mixed.

(** The search as [minimize] runs it on the logarithm.  [T i] may be 0. *)
Lemma minimize_mixed (F : list R -> M (list R)) n g T lo hi prec eps maxiter w :
  0 < lo -> lo <= hi -> 0 < prec ->
  (forall i, (i < n)%nat -> valley (fun x => 0 < x) (g i) (T i) /\ 0 <= T i <= hi) ->
  acts_as F n (fun x => 0 < x) g ->
  exists r w' ys, minimize_run F n lo hi prec eps maxiter true w = (Ok r, w') /\
    minimize F n lo hi prec eps maxiter true w = (Ok ys, w') /\ length ys = n /\
    (mr_conv r = true -> forall i y, nth_error ys i = Some y -> 0 < y /\
       (lo <= T i -> Rabs (lim true y - lim true (T i)) < 2 * (sqrt eps * Rabs (lim true y) + prec / 3)) /\
       (T i < lo -> lim true y < lim true lo + 2 * (sqrt eps * Rabs (lim true y) + prec / 3))).
Proof.
  intros P L Pr U A. destruct (tols_nn prec eps (Rlt_le _ _ Pr)) as [R1 R2].
  assert (Ll := lim_le true lo hi (fun _ => P) L).
  set (low := lim true lo - excursion (sqrt eps) (lim true lo) (lim true hi) maxiter - 1).
  set (t := fun i => if Rle_lt_dec (T i) 0 then low else lim true (T i)).
  assert (El : low < lim true lo) by (assert (Q := excursion_nn (sqrt eps) (lim true lo) (lim true hi) R1 Ll maxiter); unfold low; lra).
  assert (Lt : forall a b, 0 < a -> a < b -> lim true a < lim true b).
  { intros a b Pa Hab. unfold lim. cbn [nlog10 ROps]. apply Rmult_lt_compat_r; [apply Rinv_0_lt_compat, ln10_p|now apply ln_increasing]. }
  assert (Lp : forall x, lim true (to_point true x) = x) by (intros x; apply log_pow).
  assert (Pp : forall x, 0 < to_point true x) by (intros x; apply pow_p).
  destruct (mrun_mixed (sqrt eps) (prec / 3) (lim true lo) (lim true hi) R1 ltac:(lra) Ll true F n maxiter
    (fun i x => g i (to_point true x)) t w) as (r & w' & E & Ln & Ec & B).
  - intros i Hi. destruct (U i Hi) as ((Dec & Inc) & T0 & T1). unfold t. destruct (Rle_lt_dec (T i) 0) as [Z|Z].
    + split; [|lra]. split.
      * intros x y [Nx _] _ XY Q. unfold low in Q. lra.
      * intros x y _ _ _ XY. apply Inc; auto; [pose proof (Pp x); lra|now apply pow_lt].
    + split; [|now apply lim_le]. split.
      * intros x y _ _ XY Q. apply Dec; auto; [now apply pow_lt|].
        destruct (Rle_lt_dec (to_point true y) (T i)) as [|G]; auto. apply Lt in G; auto. rewrite Lp in G. lra.
      * intros x y _ _ Q XY. apply Inc; auto; [|now apply pow_lt].
        destruct (Rle_lt_dec (T i) (to_point true x)) as [|G]; auto. apply Lt in G; auto. rewrite Lp in G. lra.
  - intros xs w0 Lx _. destruct (A (map (to_point true) xs) w0) as (fs & w1 & E & Lf & Hf).
    + now rewrite map_length.
    + intros x Hx. apply in_map_iff in Hx as (z & <- & _). apply Pp.
    + exists fs, w1. split; auto. split; auto. intros i x Hi. apply Hf. now rewrite nth_error_map, Hi.
  - assert (E' : minimize_run F n lo hi prec eps maxiter true w = (Ok r, w')) by (rewrite run_unfold; exact E).
    exists r, w', (map (fun s => to_point true (mx s)) (mr_states r)). split; [exact E'|]. split; [|split].
    + unfold minimize, bind. now rewrite E'.
    + now rewrite map_length.
    + intros C i y Hi. rewrite nth_error_map in Hi. destruct (nth_error (mr_states r) i) as [s|] eqn:Es; [|discriminate].
      assert (y = to_point true (mx s)) as -> by (cbn [option_map] in Hi; congruence). clear Hi. split; [apply Pp|]. rewrite !Lp. rewrite Ec in C. rewrite forallb_forall in C. specialize (C s (nth_error_In _ _ Es)).
      assert (Hi : (i < n)%nat) by (rewrite <- Ln; apply nth_error_Some; congruence). destruct (U i Hi) as (_ & T0 & T1).
      destruct (tracked_close (sqrt eps) (prec / 3) (lim true lo) (lim true hi) maxiter _ t i s (B i s Es) C) as [C1 C2].
      rewrite tol_eq in C1, C2. unfold t in C1, C2. destruct (Rle_lt_dec (T i) 0) as [Z|Z].
      * split; [lra|]. intros _. now apply C2.
      * split; intros Q; [apply C1; now apply lim_le|apply C2; now apply Lt].
Qed.

Lemma residue_valley g T : strictly_monotone (fun t => 0 <= t) g -> 0 <= T -> valley (fun x => 0 < x) (fun t => Rabs (g T - g t)) T.
Proof.
  intros Mo HT. destruct (residue_unimodal (fun t => 0 <= t) g T Mo HT) as (_ & Dec & Inc).
  split; intros x y Hx Hy; [apply Dec|apply Inc]; lra.
Qed.

Lemma equiv_time_mixed (m : mech R) conds lats (g : nat -> R -> R) (T : nat -> R) s vs L C D w :
  mc_kind m = KDeg -> s <> [] -> length vs = prod s ->
  (forall i, (i < prod s)%nat -> strictly_monotone (fun t => 0 <= t) (g i) /\ 0 <= T i <= 10000000000 /\ nth_error vs i = Some (g i (T i))) ->
  (forall ts w, length ts = prod s -> (forall t, In t ts -> 0 < t) ->
     exists fs w', call_or_loop (lm_eqn (mc_mdl m)) (mech_args m (PArr (Nd s ts)) conds lats) L C D w
                   = (Ok (PArr (Nd s fs)), w') /\ length fs = prod s /\
       forall i t, nth_error ts i = Some t -> nth_error fs i = Some (g i t)) ->
  exists r w' ys,
    minimize_run (equiv_obj m (PArr (Nd s vs)) (Nd s vs) conds lats L C D) (prod s) (/ 1000) 10000000000 (/ 100000) mach_64bit_eps 50 true w = (Ok r, w') /\
    mech_equiv_time m (PArr (Nd s vs)) conds lats L C D w = (Ok (PArr (Nd s ys)), w') /\ length ys = prod s /\
    (mr_conv r = true -> forall i y, (i < prod s)%nat -> nth_error ys i = Some y ->
       (1 - rel_error) * T i - abs_error <= y <= (1 + rel_error) * T i + abs_error).
Proof.
  intros K Ne Lv Law F.
  destruct (minimize_mixed (equiv_obj m (PArr (Nd s vs)) (Nd s vs) conds lats L C D) (prod s)
    (fun i t => Rabs (g i (T i) - g i t)) T (/ 1000) 10000000000 (/ 100000) mach_64bit_eps 50 w)
    as (r & w' & ys & E1 & E2 & Ly & A); try lra.
  - intros i Hi. destruct (Law i Hi) as (Mo & B & _). split; [|exact B]. now apply residue_valley.
  - intros xs w0 Lx Px. destruct (F xs w0 Lx Px) as (fs & w1 & E & Lf & G).
    exists (map (fun xy => Rabs (fst xy - snd xy)) (List.combine vs fs)), w1. split; [|split].
    + now apply (obj_ok m conds lats (PArr (Nd s vs)) s vs xs fs L C D w0 w1).
    + rewrite map_length, combine_length, Lv, Lf. apply Nat.min_id.
    + intros i x Hx. assert (Hi : (i < prod s)%nat) by (rewrite <- Lx; apply nth_error_Some; congruence).
      destruct (Law i Hi) as (_ & _ & Ev). rewrite (nth_error_map_combine _ vs fs i _ _ Ev (G i x Hx)). reflexivity.
  - exists r, w', ys. split; [exact E1|]. split; [|split; [exact Ly|]].
    + rewrite equiv_time_eq by auto. rewrite Lv. erewrite bind_eval by exact E2. reflexivity.
    + intros Cv i y Hi Hy. destruct (A Cv i y Hy) as (Py & Hin & Hbe). destruct (Law i Hi) as (_ & B & _).
      replace (/ 100000 / 3) with (/ 300000) in Hin, Hbe by lra.
      assert (Pe : 0 < rel_error /\ 0 < abs_error /\ rel_error < 1 /\ / 1000 < abs_error) by (unfold rel_error, abs_error; lra).
      destruct (Rle_lt_dec (/ 1000) (T i)) as [Q|Q].
      * specialize (Hin Q). unfold lim in Hin. cbn [nlog10 ROps] in Hin. apply close_rel in Hin; lra.
      * specialize (Hbe Q). rewrite lim_low in Hbe. unfold lim in Hbe. cbn [nlog10 ROps] in Hbe. apply fresh_small in Hbe; auto.
        assert (0 <= rel_error * T i <= T i) by (split; [apply Rmult_le_pos; lra|rewrite <- (Rmult_1_l (T i)) at 2; apply Rmult_le_compat_r; lra]). lra.
Qed.
