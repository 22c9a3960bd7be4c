(** The minimiser in binary64: runs (C89). *)
From Coq Require Import Reals QArith Lra Lia.
From Flocq Require Import Core BinarySingleNaN Relative.
From Verif Require Import M_Base M_Num M_NumB M_Minimize S_Digits S_MinB L_Base L_Digits L_MinB.
Open Scope R_scope.

Section Run.
Variables log10 pow10 : b64t -> b64t.
#[local] Instance OB : NumOps b64t := b_ops log10 pow10.
Variables rel abs : b64t.
Hypothesis REL : between 0 (/ 1000) rel.
Hypothesis ABS : between (/ 10 ^ 30) (10 ^ 30) abs.
Notation A := (val abs).
Notation next_u := (next_u rel abs).
Notation update := (update rel abs).
Notation converged := (converged rel abs).

(** ** Guarding the function changes nothing while an invariant holds *)
Section Guard.
Variables (P : b64t -> bool) (e : exn) (lg : bool) (F : list b64t -> M (list b64t)).
Variable (Q : list b64t -> Prop).
Hypothesis VAL : forall pts w w' fs, F pts w = (Ok fs, w') -> Q fs.
Variable I : nat -> list (mst b64t) -> Prop.
Hypothesis SAFE : forall k ss, I (S k) ss -> forallb converged ss = false -> Forall (fun u => P (to_point lg u) = true) (map next_u ss).
Hypothesis STEP : forall k ss fus, I (S k) ss -> forallb converged ss = false -> length fus = length ss -> Q fus -> I k (zip_update rel abs ss fus).

Lemma evalF_guard xs w : Forall (fun u => P (to_point lg u) = true) xs -> evalF lg F xs w = evalF lg (guarded P e F) xs w.
Proof.
  intros H. unfold evalF, bind, guarded. replace (forallb P (map (to_point lg) xs)) with true; auto.
  symmetry. apply forallb_forall. intros y Y. apply in_map_iff in Y as (u & <- & U). rewrite Forall_forall in H. auto.
Qed.

Lemma mloop_guard fuel : forall ss ev w, I fuel ss ->
  mloop rel abs lg F fuel ss ev w = mloop rel abs lg (guarded P e F) fuel ss ev w /\
  (forall r w', mloop rel abs lg F fuel ss ev w = (Ok r, w') -> exists k, (k <= fuel)%nat /\ I k (mr_states r)).
Proof.
  induction fuel as [|k IH]; intros ss ev w H; cbn [mloop].
  - destruct (forallb converged ss); (split; [reflexivity|]; intros r w' E; injection E as <- <-; eauto).
  - destruct (forallb converged ss) eqn:C.
    + split; [reflexivity|]. intros r w' E; injection E as <- <-; eauto.
    + assert (G := evalF_guard (map next_u ss) w (SAFE _ _ H C)). unfold bind in *. rewrite <- G.
      destruct (evalF lg F (map next_u ss) w) as [[fus|x] w1] eqn:E.
      * assert (LE : length fus = length ss /\ Q fus).
        { unfold evalF, bind in E. destruct (F (map (to_point lg) (map next_u ss)) w) as [[fs|] w2] eqn:EF; [|discriminate].
          destruct (Nat.eqb_spec (length fs) (length (map next_u ss))) as [L|L]; [|discriminate].
          injection E as -> ->. rewrite map_length in L. split; eauto. }
        destruct (IH (zip_update rel abs ss fus) (ev ++ [(map next_u ss, fus)]) w1 (STEP _ _ _ H C (proj1 LE) (proj2 LE))) as [I1 I2].
        split; auto. intros r w' R. destruct (I2 r w' R) as (k' & K & IK). exists k'. split; auto.
      * split; [reflexivity|discriminate].
Qed.

Lemma mrun_guard n a0 b0 maxiter w :
  (0 < n -> P (to_point lg (nadd a0 (nmul gf2 (nsub b0 a0)))) = true)%nat ->
  (forall f0, length f0 = n -> Q f0 -> I maxiter (map (minit a0 b0) f0)) ->
  mrun rel abs lg F n a0 b0 maxiter w = mrun rel abs lg (guarded P e F) n a0 b0 maxiter w /\
  (forall r w', mrun rel abs lg F n a0 b0 maxiter w = (Ok r, w') -> exists k, (k <= maxiter)%nat /\ I k (mr_states r)).
Proof.
  intros H0 HI. unfold mrun. set (xs := repeat _ n).
  assert (X : Forall (fun u => P (to_point lg u) = true) xs).
  { apply Forall_forall. intros u U. assert (N := U). apply repeat_spec in U. subst u. apply H0. destruct n; [destruct N|lia]. }
  assert (G := evalF_guard xs w X). unfold bind in *. rewrite <- G.
  destruct (evalF lg F xs w) as [[fus|x] w1] eqn:E; [|split; [reflexivity|discriminate]].
  assert (LE : length fus = n /\ Q fus).
  { unfold evalF, bind in E. destruct (F (map (to_point lg) xs) w) as [[fs|] w2] eqn:EF; [|discriminate].
    destruct (Nat.eqb_spec (length fs) (length xs)) as [L|L]; [|discriminate].
    injection E as -> ->. unfold xs in L. rewrite repeat_length in L. split; eauto. }
  destruct LE. apply mloop_guard. auto.
Qed.
End Guard.

(** ** One problem, NaN allowed *)
Section Radius.
Variable B : R.
Hypothesis ROOM : 0 <= B <= 2000000000000 * A.

Lemma between_mono L H L' H' x : L' <= L -> H <= H' -> between L H x -> between L' H' x.
Proof. intros ? ? [? ?]. split; auto. lra. Qed.
Lemma nan_between_mono L H L' H' x : L' <= L -> H <= H' -> nan_or_between L H x -> nan_or_between L' H' x.
Proof. intros ? ? [->|?]; [left|right]; auto. eapply between_mono; eauto. Qed.

Lemma next_u_nan (s : mst b64t) : mx s = B754_nan -> next_u s = B754_nan.
Proof. intros E. unfold M_Minimize.next_u. rewrite E. reflexivity. Qed.

(** How far the bracket may grow in one round. *)
Definition drift : R := val rel * B + 9 / 8 * A.
Lemma drift_pos : 0 < drift.
Proof.
  assert (P := A_pos _ ABS). destruct REL as [_ RV]. unfold drift. assert (0 <= val rel * B) by (apply Rmult_le_pos; lra). lra.
Qed.

Definition okn (L H : R) (s : mst b64t) : Prop := between L H (ma s) /\ between L H (mb s) /\ nan_or_between L H (mx s).

Lemma next_u_okn L H (s : mst b64t) : - B <= L -> H <= B -> okn L H s -> nan_or_between (L - drift) (H + drift) (next_u s).
Proof.
  intros LB HB (IA & IB & [X|X]).
  - left. now apply next_u_nan.
  - destruct (step_finb log10 pow10 rel abs s) as [st0 ST].
    assert (P := A_pos _ ABS). assert (DP := drift_pos).
    assert (IA' := between_mono _ _ (- B) B _ LB HB IA). assert (IB' := between_mono _ _ (- B) B _ LB HB IB). assert (IX' := between_mono _ _ (- B) B _ LB HB X).
    destruct (tol_b log10 pow10 rel abs REL ABS B ROOM s IX') as (TF & TV & TU). change (L_MinB.OB log10 pow10) with OB in TF, TV, TU.
    unfold M_Minimize.next_u. change (nadd (mx s) (step rel abs s)) with (Bplus mode_NE (mx s) (step rel abs s)). change (L_MinB.OB log10 pow10) with OB in ST. rewrite ST.
    assert (NB := next_b log10 pow10 rel abs REL ABS B ROOM s st0 IA' IB' IX'). cbv zeta in NB. change (L_MinB.OB log10 pow10) with OB in NB. destruct NB as [[_ N]|(F & [V|[V|V]] & _)].
    + left. exact N.
    + right. destruct IA as [_ IA], IB as [_ IB]. split; [exact F|]. lra.
    + right. split; [exact F|]. rewrite V. destruct X as [_ X]. destruct IX' as [_ IX'].
      assert (N := rnd_near _ ABS (val (mx s) + val (tol rel abs s)) ltac:(apply Rabs_le; lra)). apply Rabs_le_inv in N. unfold drift in *. lra.
    + right. split; [exact F|]. rewrite V. destruct X as [_ X]. destruct IX' as [_ IX'].
      assert (N := rnd_near _ ABS (val (mx s) - val (tol rel abs s)) ltac:(apply Rabs_le; lra)). apply Rabs_le_inv in N. unfold drift in *. lra.
Qed.

Lemma cmp_nan (x u : b64t) : nleb x u = true \/ nltb u x = true -> x <> B754_nan /\ u <> B754_nan.
Proof.
  cbn [nleb nltb OB b_ops]. intros H. split; intros ->; destruct H as [H|H];
  [rewrite (proj1 (proj2 (proj2 (nan_cmp u)))) in H|rewrite (proj1 (proj2 (nan_cmp u))) in H|
   rewrite (proj2 (proj2 (proj2 (nan_cmp x)))) in H|rewrite (proj1 (nan_cmp x)) in H]; discriminate.
Qed.

(** The new bracket is made of old points and the new one. *)
Lemma update_okn L H (s : mst b64t) fu : okn L H s -> nan_or_between L H (next_u s) -> okn L H (update s fu).
Proof.
  clear REL ABS ROOM.
  intros (IA & IB & X) U. assert (XU := cmp_nan (mx s) (next_u s)). unfold okn, M_Minimize.update. cbn [ma mb mx].
  set (u := next_u s) in *. clearbody u.
  destruct (nleb fu (mfx s)) eqn:LE, (nleb (mx s) u) eqn:UPq, (nltb u (mx s)) eqn:DNq; cbn [andb negb];
    try (destruct XU as [N1 N2]; [tauto|]; destruct X as [X|X]; [tauto|]; destruct U as [U|U]; [tauto|];
         repeat split; try (apply IA || apply IB || apply X || apply U); right; auto); auto.
Qed.

(** ** A single problem keeps its bracket *)
Definition brk (s : mst b64t) : Prop := val (ma s) <= val (mb s) /\ (mx s = B754_nan \/ val (ma s) <= val (mx s) <= val (mb s)).
Lemma next_u_brk L H (s : mst b64t) : - B <= L -> H <= B -> okn L H s -> brk s -> converged s = false ->
  next_u s = B754_nan \/ fin64 (next_u s) = true /\ val (ma s) <= val (next_u s) <= val (mb s).
Proof.
  intros LB HB (IA & IB & [X|X]) (BO & BX) C.
  - left. now apply next_u_nan.
  - destruct BX as [N|BX]; [rewrite N in X; destruct X; discriminate|].
    destruct (step_finb log10 pow10 rel abs s) as [st0 ST].
    assert (IA' := between_mono _ _ (- B) B _ LB HB IA). assert (IB' := between_mono _ _ (- B) B _ LB HB IB). assert (IX' := between_mono _ _ (- B) B _ LB HB X).
    unfold M_Minimize.next_u. change (nadd (mx s) (step rel abs s)) with (Bplus mode_NE (mx s) (step rel abs s)). change (L_MinB.OB log10 pow10) with OB in ST. rewrite ST.
    assert (NB := next_b log10 pow10 rel abs REL ABS B ROOM s st0 IA' IB' IX'). cbv zeta in NB. change (L_MinB.OB log10 pow10) with OB in NB. destruct NB as [[_ N]|(F & _ & V)].
    + left. exact N.
    + right. split; [exact F|]. apply V; auto.
Qed.
Lemma next_u_single L H (s : mst b64t) : - B <= L -> H <= B -> okn L H s -> brk s -> converged s = false -> nan_or_between L H (next_u s).
Proof.
  intros LB HB IS BS C. destruct (next_u_brk L H s LB HB IS BS C) as [N|[F V]]; [now left|right]. destruct IS as ([_ IA] & [_ IB] & _). split; auto. lra.
Qed.
Lemma update_brk L H (s : mst b64t) fu : - B <= L -> H <= B -> okn L H s -> brk s -> converged s = false -> brk (update s fu).
Proof.
  intros LB HB IS BS C. assert (U := next_u_brk L H s LB HB IS BS C). assert (XU := cmp_nan (mx s) (next_u s)).
  destruct BS as [BO X], IS as ((AF & _) & (BF & _) & IX). unfold brk, M_Minimize.update. cbn [ma mb mx].
  set (u := next_u s) in *. clearbody u.
  assert (XF : mx s = B754_nan \/ fin64 (mx s) = true) by (destruct IX as [?|[? _]]; auto).
  assert (LEQ : forall x y : b64t, fin64 x = true -> fin64 y = true -> nleb x y = true -> val x <= val y) by exact leb_true.
  assert (LTQ : forall x y : b64t, fin64 x = true -> fin64 y = true -> nltb x y = true -> val x < val y) by exact ltb_true.
  destruct (nleb fu (mfx s)) eqn:LE, (nleb (mx s) u) eqn:UPq, (nltb u (mx s)) eqn:DNq; cbn [andb negb];
    try (destruct XU as [N1 N2]; [tauto|]; destruct X as [X|X]; [tauto|]; destruct U as [U|[FU U]]; [tauto|]; destruct XF as [XF|XF]; [tauto|];
         try (apply LEQ in UPq; [|auto|auto]); try (apply LTQ in DNq; [|auto|auto]); split; [lra|right; lra]).
  - destruct U as [U|[FU U]]; auto.
  - auto.
Qed.
End Radius.
End Run.
