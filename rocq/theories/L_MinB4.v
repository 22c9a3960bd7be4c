(** The minimiser in binary64: where whole runs evaluate their function (C89). *)
From Coq Require Import Reals QArith Lra Lia.
From Flocq Require Import Core BinarySingleNaN Relative.
From Verif Require Import M_Base M_Num M_NumB M_Minimize S_Digits S_MinB L_Base L_Digits L_MinB L_MinB2 L_MinB3.
Open Scope R_scope.

Section Run.
Variables log10 pow10 : b64t -> b64t.
#[local] Instance OB : NumOps b64t := b_ops log10 pow10.
Variables rel abs lo hi : b64t.
Hypothesis SANE : sane rel abs lo hi.
Notation A := (val abs).
Notation okn := (okn).
Notation okf := (okf).
Notation x0 := (nadd lo (nmul gf2 (nsub hi lo))).

Lemma guess_inside : between (val lo) (val hi) x0.
Proof.
  destruct SANE as [RL AB LF HF OR [SL SH]]. assert (P := A_pos _ AB). assert (BG := A_big log10 pow10 _ AB). assert (T := ten30).
  assert (T30 : / 10 ^ 30 <= A) by apply AB.
  apply Rabs_le_inv in SL, SH. destruct (b_gf2 log10 pow10) as [GF GV0]. assert (GV : 38 / 100 <= val (gf2 : b64t) <= 39 / 100) by exact GV0. clear GV0.
  cbn [nadd nsub nmul OB b_ops].
  destruct (minus_ok hi lo) as [V1 F1]; auto; [apply BG, Rabs_le; lra|].
  assert (C1 := rnd_close (val hi - val lo)). rewrite (Rabs_pos_eq (val hi - val lo)) in C1 by lra. apply Rabs_le_inv in C1.
  assert (N1 := rnd_near _ AB (val hi - val lo) ltac:(apply Rabs_le; lra)). apply Rabs_le_inv in N1.
  set (d := Bminus mode_NE hi lo) in *. rewrite <- V1 in C1, N1.
  assert (D0 : 0 <= val d) by lra.
  assert (D1 : val d <= 11 / 10 * (val hi - val lo)) by lra.
  assert (G0 : 0 <= val (gf2 : b64t) * val d) by (apply Rmult_le_pos; lra).
  assert (G1 : val (gf2 : b64t) * val d <= 39 / 100 * val d) by (apply Rmult_le_compat_r; lra).
  destruct (times_ok (gf2 : b64t) d) as [V2 F2]; auto; [apply BG, Rabs_le; lra|].
  assert (C2 := rnd_close (val (gf2 : b64t) * val d)). rewrite (Rabs_pos_eq (val (gf2 : b64t) * val d)) in C2 by lra. apply Rabs_le_inv in C2.
  assert (C3 : 0 <= rnd (val (gf2 : b64t) * val d)) by (change 0 with (val (n0 : b64t)); apply rnd_ge_val; exact G0).
  set (g := Bmult mode_NE (gf2 : b64t) d) in *. rewrite <- V2 in C2, C3.
  destruct (plus_ok lo g) as [V3 F3]; auto; [apply BG, Rabs_le; lra|].
  split; [exact F3|]. rewrite V3. split; [apply rnd_ge_val|apply rnd_le_val]; lra.
Qed.

Lemma zip_forall (P : mst b64t -> Prop) (Q : b64t -> Prop) (R : mst b64t -> Prop) ss : forall fus,
  (forall s f, P s -> Q f -> R (update rel abs s f)) -> Forall P ss -> Forall Q fus -> Forall R (zip_update rel abs ss fus).
Proof.
  induction ss as [|s r IH]; intros [|f g] H HP HQ; cbn; auto. inversion HP; inversion HQ; subst. constructor; auto.
Qed.

Section Guard.
Variables (P : b64t -> bool) (e : exn) (lg : bool) (F : list b64t -> M (list b64t)).

(** ** One problem *)
Definition B1 : R := 1000000000000 * A.
Lemma room1 : 0 <= B1 <= 2000000000000 * A /\ - B1 <= val lo /\ val hi <= B1.
Proof. destruct SANE as [RL AB LF HF OR [SL SH]]. assert (Q := A_pos _ AB). apply Rabs_le_inv in SL, SH. unfold B1. lra. Qed.

Lemma init_okn f0 : okn (val lo) (val hi) (minit lo hi f0) /\ brk (minit lo hi f0).
Proof.
  destruct SANE as [RL AB LF HF OR _]. assert (Q := A_pos _ AB). assert (G := guess_inside). unfold okn, brk, minit. cbn [ma mb mx].
  assert (G' := proj2 G). split; [|split; [lra|right; exact G']]. split; [split; [auto|lra]|]. split; [split; [auto|lra]|]. right; exact G.
Qed.
Lemma init_okf f0 : moderate f0 -> okf (val lo) (val hi) (minit lo hi f0).
Proof.
  intros MD. destruct (init_okn f0) as [(IA & IB & _) _]. assert (G := guess_inside). unfold okf. cbn [ma mb mx mv mw mfv mfw mfx minit].
  exact (conj IA (conj IB (conj G (conj G (conj G (conj MD (conj MD MD))))))).
Qed.

Lemma run_single maxiter w :
  (forall u, nan_or_between (val lo) (val hi) u -> P (to_point lg u) = true) ->
  mrun rel abs lg F 1 lo hi maxiter w = mrun rel abs lg (guarded P e F) 1 lo hi maxiter w /\
  (forall r w', mrun rel abs lg F 1 lo hi maxiter w = (Ok r, w') ->
     exists s, mr_states r = [s] /\ okn (val lo) (val hi) s /\ brk s).
Proof.
  intros HP. destruct SANE as [RL AB LF HF OR _]. destruct room1 as (RM & LB & HB).
  destruct (mrun_guard log10 pow10 rel abs P e lg F (fun _ => True) (fun _ _ _ _ _ => I)
              (fun _ ss => exists s, ss = [s] /\ okn (val lo) (val hi) s /\ brk s)) with (n := 1%nat) (a0 := lo) (b0 := hi) (maxiter := maxiter) (w := w) as [E1 E2].
  - intros k ss (s & -> & I1 & I2) C. cbn [forallb] in C. rewrite andb_true_r in C. constructor; [|constructor]. apply HP.
    eapply (next_u_single log10 pow10); eauto.
  - intros k ss [|fu [|]] (s & -> & I1 & I2) C L _; try discriminate. cbn [forallb] in C. rewrite andb_true_r in C. exists (update rel abs s fu). split; [reflexivity|]. split.
    + apply (update_okn log10 pow10); auto. eapply (next_u_single log10 pow10); eauto.
    + eapply (update_brk log10 pow10); eauto.
  - intros _. apply HP. right. apply guess_inside.
  - intros [|f [|]] L _; try discriminate. exists (minit lo hi f). split; [reflexivity|]. apply init_okn.
  - split; [exact E1|]. intros r w' R. destruct (E2 r w' R) as (_ & _ & H). exact H.
Qed.

Lemma run_single_moderate maxiter w : values moderate F ->
  (forall u, between (val lo) (val hi) u -> P (to_point lg u) = true) ->
  mrun rel abs lg F 1 lo hi maxiter w = mrun rel abs lg (guarded P e F) 1 lo hi maxiter w /\
  (forall r w', mrun rel abs lg F 1 lo hi maxiter w = (Ok r, w') ->
     exists s, mr_states r = [s] /\ okf (val lo) (val hi) s /\ brk s).
Proof.
  intros VM HP. destruct SANE as [RL AB LF HF OR _]. destruct room1 as (RM & LB & HB).
  destruct (mrun_guard log10 pow10 rel abs P e lg F (Forall moderate) VM
              (fun _ ss => exists s, ss = [s] /\ okf (val lo) (val hi) s /\ brk s)) with (n := 1%nat) (a0 := lo) (b0 := hi) (maxiter := maxiter) (w := w) as [E1 E2].
  - intros k ss (s & -> & I1 & I2) C. cbn [forallb] in C. rewrite andb_true_r in C. constructor; [|constructor]. apply HP.
    apply between_nan.
    + eapply (next_u_single log10 pow10); eauto. now apply okf_okn.
    + eapply (next_u_not_nan log10 pow10); eauto.
  - intros k ss [|fu [|]] (s & -> & I1 & I2) C L MF; try discriminate. cbn [forallb] in C. rewrite andb_true_r in C. exists (update rel abs s fu). split; [reflexivity|].
    inversion MF; subst. assert (I3 := okf_okn _ _ _ I1). split.
    + apply (update_okf log10 pow10); auto. apply between_nan.
      * eapply (next_u_single log10 pow10); eauto.
      * eapply (next_u_not_nan log10 pow10); eauto.
    + eapply (update_brk log10 pow10); eauto.
  - intros _. apply HP. apply guess_inside.
  - intros [|f [|]] L MF; try discriminate. inversion MF; subst. exists (minit lo hi f). split; [reflexivity|]. split; [now apply init_okf|apply init_okn].
  - split; [exact E1|]. intros r w' R. destruct (E2 r w' R) as (_ & _ & H). exact H.
Qed.

(** ** Arrays of problems *)
Variable B : R.
Variable maxiter : nat.
Notation D := (drift rel abs B).
Hypothesis ROOM : 0 <= B <= 2000000000000 * A.
Hypothesis WIDE : - B <= val lo - INR maxiter * D /\ val hi + INR maxiter * D <= B.
Definition low (k : nat) : R := val lo - INR (maxiter - k) * D.
Definition high (k : nat) : R := val hi + INR (maxiter - k) * D.

Lemma D_pos : 0 < D.
Proof. destruct SANE as [RL AB _ _ OR _]. apply (drift_pos rel abs RL AB B). exact ROOM. Qed.
Lemma low_S k : (S k <= maxiter)%nat -> low (S k) - D = low k /\ high (S k) + D = high k.
Proof.
  intros K. unfold low, high. replace (maxiter - k)%nat with (S (maxiter - S k)) by lia. rewrite S_INR. split; ring.
Qed.
Lemma low_le k : val lo - INR maxiter * D <= low k /\ high k <= val hi + INR maxiter * D.
Proof.
  assert (N := D_pos). unfold low, high. assert (L : INR (maxiter - k) <= INR maxiter) by (apply le_INR; lia).
  assert (INR (maxiter - k) * D <= INR maxiter * D) by (apply Rmult_le_compat_r; lra). lra.
Qed.
Lemma widen L H L' H' s : L' <= L -> H <= H' -> okn L H s -> okn L' H' s.
Proof. intros X Y (IA & IB & IX). split; [|split]; [eapply between_mono|eapply between_mono|eapply nan_between_mono]; eauto. Qed.
Lemma widen_f L H L' H' s : L' <= L -> H <= H' -> okf L H s -> okf L' H' s.
Proof.
  intros X Y (IA & IB & IX & IV & IW & MD).
  assert (BM := fun z => between_mono L H L' H' z X Y).
  exact (conj (BM _ IA) (conj (BM _ IB) (conj (BM _ IX) (conj (BM _ IV) (conj (BM _ IW) MD))))).
Qed.

Lemma run_many n w :
  (forall u, nan_or_between (val lo - INR maxiter * D) (val hi + INR maxiter * D) u -> P (to_point lg u) = true) ->
  mrun rel abs lg F n lo hi maxiter w = mrun rel abs lg (guarded P e F) n lo hi maxiter w /\
  (forall r w', mrun rel abs lg F n lo hi maxiter w = (Ok r, w') ->
     Forall (okn (val lo - INR maxiter * D) (val hi + INR maxiter * D)) (mr_states r)).
Proof.
  intros HP. assert (SN := SANE). destruct SN as [RL AB LF HF OR _]. assert (DP := D_pos).
  assert (RM := ROOM).
  assert (NX : forall k s, (S k <= maxiter)%nat -> okn (low (S k)) (high (S k)) s -> nan_or_between (low k) (high k) (next_u rel abs s)).
  { intros k s K H. destruct (low_S k K) as [<- <-]. destruct (low_le (S k)) as [L1 L2]. eapply (next_u_okn log10 pow10); eauto; lra. }
  destruct (mrun_guard log10 pow10 rel abs P e lg F (fun _ => True) (fun _ _ _ _ _ => I)
              (fun k ss => (k <= maxiter)%nat /\ Forall (okn (low k) (high k)) ss)) with (n := n) (a0 := lo) (b0 := hi) (maxiter := maxiter) (w := w) as [E1 E2].
  - intros k ss [K H] _. apply Forall_map. eapply Forall_impl; [|exact H]. cbn. intros s I1. apply HP.
    destruct (low_le k) as [L1 L2]. eapply nan_between_mono; [exact L1|exact L2|]. apply NX; auto.
  - intros k ss fus [K H] _ _ _. split; [lia|]. eapply (zip_forall _ (fun _ => True)); [|exact H|].
    + intros s f I1 _. apply (update_okn log10 pow10); [|apply NX; auto].
      destruct (low_S k K) as [L1 L2]. eapply widen; [| |exact I1]; lra.
    + apply Forall_forall. auto.
  - intros _. apply HP. right. eapply between_mono; [| |apply guess_inside].
    + assert (0 <= INR maxiter * D) by (apply Rmult_le_pos; [apply pos_INR|lra]). lra.
    + assert (0 <= INR maxiter * D) by (apply Rmult_le_pos; [apply pos_INR|lra]). lra.
  - intros f0 _ _. split; [lia|]. apply Forall_map, Forall_forall. intros f _. destruct (init_okn f) as [I1 _].
    unfold low, high. rewrite Nat.sub_diag. cbn [INR]. eapply widen; [| |exact I1]; lra.
  - split; [exact E1|]. intros r w' R. destruct (E2 r w' R) as (k & _ & _ & H). eapply Forall_impl; [|exact H].
    intros s. cbn. destruct (low_le k) as [L1 L2]. now apply widen.
Qed.

Lemma run_many_moderate n w : values moderate F ->
  (forall u, between (val lo - INR maxiter * D) (val hi + INR maxiter * D) u -> P (to_point lg u) = true) ->
  mrun rel abs lg F n lo hi maxiter w = mrun rel abs lg (guarded P e F) n lo hi maxiter w /\
  (forall r w', mrun rel abs lg F n lo hi maxiter w = (Ok r, w') ->
     Forall (okf (val lo - INR maxiter * D) (val hi + INR maxiter * D)) (mr_states r)).
Proof.
  intros VM HP. assert (SN := SANE). destruct SN as [RL AB LF HF OR _]. assert (DP := D_pos).
  assert (RM := ROOM).
  assert (NX : forall k s, (S k <= maxiter)%nat -> okf (low (S k)) (high (S k)) s -> between (low k) (high k) (next_u rel abs s)).
  { intros k s K H. apply between_nan.
    - destruct (low_S k K) as [<- <-]. destruct (low_le (S k)) as [L1 L2]. apply okf_okn in H. eapply (next_u_okn log10 pow10); eauto; lra.
    - destruct (low_le (S k)) as [L1 L2]. eapply (next_u_not_nan log10 pow10); [exact RL|exact AB|exact RM| | |exact H]; lra. }
  destruct (mrun_guard log10 pow10 rel abs P e lg F (Forall moderate) VM
              (fun k ss => (k <= maxiter)%nat /\ Forall (okf (low k) (high k)) ss)) with (n := n) (a0 := lo) (b0 := hi) (maxiter := maxiter) (w := w) as [E1 E2].
  - intros k ss [K H] _. apply Forall_map. eapply Forall_impl; [|exact H]. cbn. intros s I1. apply HP.
    destruct (low_le k) as [L1 L2]. eapply between_mono; [exact L1|exact L2|]. apply NX; auto.
  - intros k ss fus [K H] _ _ MF. split; [lia|]. eapply (zip_forall _ moderate); [|exact H|exact MF].
    intros s f I1 MD. apply (update_okf log10 pow10); [|apply NX; auto|exact MD].
    destruct (low_S k K) as [L1 L2]. eapply widen_f; [| |exact I1]; lra.
  - intros _. apply HP. eapply between_mono; [| |apply guess_inside].
    + assert (0 <= INR maxiter * D) by (apply Rmult_le_pos; [apply pos_INR|lra]). lra.
    + assert (0 <= INR maxiter * D) by (apply Rmult_le_pos; [apply pos_INR|lra]). lra.
  - intros f0 _ MF. split; [lia|]. apply Forall_map. eapply Forall_impl; [|exact MF]. intros f MD. assert (I1 := init_okf f MD).
    unfold low, high. rewrite Nat.sub_diag. cbn [INR]. eapply widen_f; [| |exact I1]; lra.
  - split; [exact E1|]. intros r w' R. destruct (E2 r w' R) as (k & _ & _ & H). eapply Forall_impl; [|exact H].
    intros s. cbn. destruct (low_le k) as [L1 L2]. now apply widen_f.
Qed.
End Guard.
End Run.
