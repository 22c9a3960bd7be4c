(** The vectorised search for functions that only rise: it ends at the lower limit.
    For the equivalent time of fresh devices (C88). *)
From Coq Require Import Reals QArith Qreals Lra.
From Flocq Require Import Core.
From Verif Require Import M_Base M_Num M_NumR M_Nd M_Minimize S_Minimize L_Base L_Minimize.
Open Scope R_scope.

Definition rising (D : R -> Prop) (g : R -> R) : Prop := forall x y, D x -> D y -> x < y -> g x < g y.

Section Rising.
Variables (rel abs_ lo hi : R).
Hypothesis rel_nn : 0 <= rel.
Hypothesis abs_p : 0 < abs_.
Hypothesis lohi : lo <= hi.
Local Notation tol := (tol rel abs_).
Local Notation converged := (converged rel abs_).
Local Notation next_u := (next_u rel abs_).
Local Notation update := (update rel abs_).
Local Notation near := (near rel lo hi).
Local Notation hull := (hull rel abs_ lo hi).
Let abs_nn : 0 <= abs_ := Rlt_le _ _ abs_p.

Definition leftmost (K : nat) (g : nat -> R -> R) (i : nat) (s : mst R) : Prop :=
  mfx s = g i (mx s) /\ ma s = lo /\ mx s <= mb s /\ near K (mx s).

Lemma leftmost_step K g i s : rising (near K) (g i) -> near K (next_u s) -> leftmost K g i s ->
  leftmost K g i (update s (g i (next_u s))).
Proof.
  intros Ri Du (Ef & Ea & Xb & Dx).
  assert (Far := next_u_far rel abs_ rel_nn abs_nn s). assert (T := tol_p rel abs_ rel_nn abs_p s).
  assert (NE : next_u s <> mx s) by (intros E; rewrite E, Rminus_eq_0, Rabs_R0 in Far; lra).
  unfold leftmost.
  destruct (update_x rel abs_ s (g i (next_u s))) as [(Le & -> & -> & [(? & -> & ->)|(? & -> & ->)])|(Lt & -> & -> & [(? & -> & ->)|(? & -> & ->)])];
    rewrite ?Ef in *.
  - assert (g i (mx s) < g i (next_u s)) by (apply Ri; auto; lra). lra.
  - repeat split; auto; lra || apply Du.
  - repeat split; auto; try lra; apply Dx.
  - assert (g i (next_u s) < g i (mx s)) by (apply Ri; auto; lra). lra.
Qed.

Lemma mloop_rising lg F n K g : (forall i, (i < n)%nat -> rising (near K) (g i)) ->
  acts_as (fun xs => F (map (to_point lg) xs)) n (near K) g ->
  forall fuel k ss ev w, (k + fuel = K)%nat -> length ss = n -> (forall s, In s ss -> hull k s) ->
  (forall i s, nth_error ss i = Some s -> leftmost K g i s) ->
  exists r w', mloop rel abs_ lg F fuel ss ev w = (Ok r, w') /\ length (mr_states r) = n /\
    mr_conv r = forallb converged (mr_states r) /\
    forall i s, nth_error (mr_states r) i = Some s -> leftmost K g i s.
Proof.
  intros U A. induction fuel as [|j IH]; intros k ss ev w EK L Hh B; cbn [mloop];
    destruct (forallb converged ss) eqn:C; try (do 2 eexists; split; [reflexivity|]; cbn; auto).
  assert (Dn : forall s, In s ss -> near K (next_u s)).
  { intros s Hs. apply near_mono with (S k); auto; [lia|]. now apply (hull_step rel abs_ lo hi rel_nn abs_nn k s 0), Hh. }
  destruct (A (map next_u ss) w) as (fs & w1 & E & Lf & Hf).
  { now rewrite map_length. }
  { intros x Hx. apply in_map_iff in Hx as (s & <- & Hs). auto. }
  unfold bind, evalF, bind. rewrite E. rewrite Lf, map_length, L, Nat.eqb_refl. unfold ret.
  apply IH with (S k); [lia| | |].
  - rewrite zip_update_length; lia.
  - intros s' Hs'. apply In_nth_error in Hs' as [i Hi]. apply zip_update_nth_inv in Hi as (s & f & Hs & _ & ->).
    apply hull_step; auto. apply Hh. eapply nth_error_In; eauto.
  - intros i s' Hi. apply zip_update_nth_inv in Hi as (s & f & Hs & Hf' & ->).
    rewrite (Hf i (next_u s)) in Hf' by now rewrite nth_error_map, Hs. injection Hf' as <-.
    apply leftmost_step.
    + apply U. rewrite <- L. apply nth_error_Some. congruence.
    + apply Dn. eapply nth_error_In; eauto.
    + now apply B.
Qed.

Lemma mrun_rising lg F n K g w : (forall i, (i < n)%nat -> rising (near K) (g i)) ->
  acts_as (fun xs => F (map (to_point lg) xs)) n (near K) g ->
  exists r w', mrun rel abs_ lg F n lo hi K w = (Ok r, w') /\ length (mr_states r) = n /\
    mr_conv r = forallb converged (mr_states r) /\
    forall i s, nth_error (mr_states r) i = Some s -> leftmost K g i s.
Proof.
  intros U A. unfold mrun. cbn [nadd nmul nsub ROps]. set (x0 := lo + gf2 * (hi - lo)).
  assert (D0 : near K x0) by (apply near_mono with 0%nat; auto; [lia|now apply near_init]).
  destruct (A (repeat x0 n) w) as (f0 & w1 & E & Lf & Hf).
  { apply repeat_length. } { intros x Hx. apply repeat_spec in Hx. now subst. }
  unfold bind, evalF, bind. rewrite E, Lf, repeat_length, Nat.eqb_refl. unfold ret.
  assert (B0 : forall i s, nth_error (map (minit lo hi) f0) i = Some s -> leftmost K g i s).
  { intros i s Hi. rewrite nth_error_map in Hi. destruct (nth_error f0 i) as [f|] eqn:Ef; [|discriminate].
    injection Hi as <-. assert (Hi : (i < n)%nat) by (rewrite <- Lf; apply nth_error_Some; congruence).
    rewrite (Hf i x0) in Ef by now rewrite nth_error_repeat. injection Ef as <-.
    split; [reflexivity|]. split; [reflexivity|]. split; [|exact D0]. assert (I := init_inside lo hi lohi). exact (proj2 I). }
  destruct (forallb converged (map (minit lo hi) f0)) eqn:C.
  { exists (Mres (map (minit lo hi) f0) true [(repeat x0 n, f0)]), w1. cbn. rewrite map_length. split; [|auto].
    destruct K; cbn [mloop]; now rewrite C. }
  apply mloop_rising with (k := 0%nat); auto.
  - now rewrite map_length.
  - now apply init_all.
Qed.

(** Where such an element ends. *)
Lemma leftmost_close K g i s : leftmost K g i s -> converged s = true ->
  lo - excursion rel lo hi K <= mx s < lo + 2 * tol s.
Proof.
  intros (_ & Ea & Xb & Nx) C. split; [apply Nx|].
  assert (T := tol_p rel abs_ rel_nn abs_p s).
  destruct (Rle_lt_dec lo (mx s)) as [H|H]; [|lra].
  apply converged_close with (t := lo) in C; [|lra]. rewrite Rabs_pos_eq in C; lra.
Qed.
End Rising.

Lemma minimize_rising (F : list R -> M (list R)) n g lo hi prec eps maxiter w :
  0 < lo -> lo <= hi -> 0 < prec ->
  (forall i, (i < n)%nat -> rising (fun x => 0 < x) (g i)) ->
  acts_as F n (fun x => 0 < x) g ->
  exists r w' ys, minimize_run F n lo hi prec eps maxiter true w = (Ok r, w') /\
    minimize F n lo hi prec eps maxiter true w = (Ok ys, w') /\ length ys = n /\
    (mr_conv r = true -> forall i y, nth_error ys i = Some y -> 0 < y /\
       lim true lo - overshoot (lim true lo) (lim true hi) (sqrt eps) maxiter <= lim true y <
       lim true lo + 2 * (sqrt eps * Rabs (lim true y) + prec / 3)).
Proof.
  intros P L Pr U A. destruct (tols_nn prec eps (Rlt_le _ _ Pr)) as [R1 R2].
  assert (Ll := lim_le true lo hi (fun _ => P) L).
  destruct (mrun_rising (sqrt eps) (prec / 3) (lim true lo) (lim true hi) R1 ltac:(lra) Ll true F n maxiter
    (fun i x => g i (to_point true x)) w) as (r & w' & E & Ln & Ec & B).
  - intros i Hi x y _ _ XY. apply (U i Hi); try apply pow_p. now apply pow_lt.
  - intros xs w0 Lx _. destruct (A (map (to_point true) xs) w0) as (fs & w1 & E & Lf & Hf).
    + now rewrite map_length.
    + intros x Hx. apply in_map_iff in Hx as (z & <- & _). apply pow_p.
    + exists fs, w1. split; auto. split; auto. intros i x Hi. apply Hf. now rewrite nth_error_map, Hi.
  - assert (E' : minimize_run F n lo hi prec eps maxiter true w = (Ok r, w')) by (rewrite run_unfold; exact E).
    exists r, w', (map (fun s => to_point true (mx s)) (mr_states r)). split; [exact E'|]. split; [|split].
    + unfold minimize, bind. now rewrite E'.
    + now rewrite map_length.
    + intros C i y Hi. rewrite nth_error_map in Hi. destruct (nth_error (mr_states r) i) as [s|] eqn:Es; [|discriminate].
      injection Hi as <-. split; [apply pow_p|].
      replace (lim true (Rpower 10 (mx s))) with (mx s) by (symmetry; apply log_pow). rewrite Ec in C.
      rewrite forallb_forall in C. specialize (C s (nth_error_In _ _ Es)).
      exact (leftmost_close (sqrt eps) (prec / 3) (lim true lo) (lim true hi) R1 ltac:(lra) maxiter _ i s (B i s Es) C).
Qed.
