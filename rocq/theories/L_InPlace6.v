(** Ways to write an equation. *)
From Coq Require Import Lia.
From Verif Require Import M_Base M_Num M_Nd M_Time M_TestSpec M_Device M_Report M_Env M_Minimize M_Sim M_InPlace S_InPlace L_Base L_InPlace L_InPlace2.
Open Scope nat_scope.

Section Ways.
Context {V : Type} `{NumOps V}.
Implicit Types (h : heap V).

Lemma dmem_peekd h args pargs : peekd h args = Ok pargs -> (forall x, dmem args x = dmem pargs x) /\ dkeys args = dkeys pargs.
Proof. intros E. split; [intros x; eapply showsd_mem; eauto|eapply showsd_keys; eauto]. Qed.
Lemma signature (f : eqn V) h args pargs : peekd h args = Ok pargs ->
  forallb (dmem args) (e_req f) = forallb (dmem pargs) (e_req f) /\ dkeys args = dkeys pargs.
Proof.
  intros E. destruct (dmem_peekd _ _ _ E) as [A B]. split; [|exact B]. clear -A. induction (e_req f); cbn; [auto|]. now rewrite A, IHl.
Qed.
Lemma way (f : eqn V) (b : impl V) :
  (forall args pargs h w, peekd h args = Ok pargs ->
    match b args h w, e_body f pargs w with
    | (Ok o, h', w1), (Ok p, w2) => w1 = w2 /\ peek h' o = Ok p
    | (Err e, _, w1), (Err e', w2) => e = e' /\ w1 = w2
    | _, _ => False
    end) -> right f b.
Proof.
  intros X args pargs h w S1. unfold hcall, call. destruct (signature f _ _ _ S1) as [-> ->].
  match goal with |- context [if ?c then _ else _] => destruct c end; [now apply X|]. cbn. auto.
Qed.
Lemma behaves_body tw (f : eqn V) (b : impl V) :
  (forall args pargs h w, peekd h args = Ok pargs ->
    match b args h w, e_body f pargs w with
    | (Ok o, h', w1), (Ok p, w2) => w1 = w2 /\ peek h' o = Ok p /\
      (keeps every h h' \/ tw = true /\ keeps (fun a => ~ time_cell args a) h h' /\ like_time pargs p)
    | (Err e, h', w1), (Err e', w2) => e = e' /\ w1 = w2 /\
      (keeps every h h' \/ tw = true /\ keeps (fun a => ~ time_cell args a) h h' /\ e <> ValueError)
    | _, _ => False
    end) -> behaves tw f b.
Proof.
  intros X args pargs h w S1. unfold hcall, call. destruct (signature f _ _ _ S1) as [-> ->].
  match goal with |- context [if ?c then _ else _] => destruct c end; [now apply X|]. cbn. split; [auto|]. split; [auto|]. left. apply keeps_refl.
Qed.
Lemma behaves_right tw (f : eqn V) b : behaves tw f b -> right f b.
Proof.
  intros B args pargs h w S1. specialize (B args pargs h w S1). destruct (hcall f b args h w) as [[[o|e] h'] w1]; destruct (call f pargs w) as [[p|e'] w2]; tauto.
Qed.
Lemma behaves_more (f : eqn V) b : behaves false f b -> forall tw, behaves tw f b.
Proof.
  intros B tw args pargs h w S1. specialize (B args pargs h w S1). destruct (hcall f b args h w) as [[[o|e] h'] w1]; destruct (call f pargs w) as [[p|e'] w2]; try tauto.
  - destruct B as (? & ? & [?|(? & _)]); [auto|discriminate].
  - destruct B as (? & ? & [?|(? & _)]); [auto|discriminate].
Qed.

Lemma afresh_behaves (f : eqn V) tw : behaves tw f (afresh f).
Proof.
  apply behaves_more, behaves_body. intros args pargs h w S1. unfold afresh, hbind, loadd, hpure. rewrite S1.
  destruct (e_body f pargs w) as [[p|e] w1].
  - unfold new. destruct (put h p) as [o h'] eqn:E. destruct (put_spec _ _ _ _ E) as (K & Z & _). auto.
  - split; [auto|]. split; [auto|]. left. apply keeps_refl.
Qed.
Lemma in_place_body x (f : eqn V) args pargs h w : peekd h args = Ok pargs ->
    match in_place x f args h w, e_body f pargs w with
    | (Ok o, h', w1), (Ok p, w2) => w1 = w2 /\ peek h' o = Ok p /\
      (keeps every h h' \/ exists a y z, dget args x = Some (OArr a []) /\ dget pargs x = Some (PArr y) /\ p = PArr z /\ nshape z = nshape y /\ keeps (fun b => b <> a) h h')
    | (Err e, h', w1), (Err e', w2) => e = e' /\ w1 = w2 /\ keeps every h h'
    | _, _ => False
    end.
Proof.
  intros S1. unfold in_place, hbind, loadd, hpure. rewrite S1. destruct (e_body f pargs w) as [[p|e] w1]; [|repeat split; auto].
  assert (N : match new p h w1 with
    | (Ok o, h', w1') => w1' = w1 /\ peek h' o = Ok p /\ keeps every h h'
    | _ => False end).
  { unfold new. destruct (put h p) as [o h'] eqn:E. destruct (put_spec _ _ _ _ E) as (K & Z & _). auto. }
  assert (F : match new p h w1 with
    | (Ok o, h', w1') => w1' = w1 /\ peek h' o = Ok p /\
      (keeps every h h' \/ exists a y z, dget args x = Some (OArr a []) /\ dget pargs x = Some (PArr y) /\ p = PArr z /\ nshape z = nshape y /\ keeps (fun b => b <> a) h h')
    | _ => False end).
  { destruct (new p h w1) as [[[o|] h'] w2]; try tauto. }
  pose proof (showsd_get h args pargs x S1) as G.
  destruct (dget args x) as [[v|v|a [|k ks]|dd]|] eqn:Ex; try exact F.
  destruct (dget pargs x) as [[v|v|y|dd]|] eqn:Ep; try exact F. destruct p as [v|v|z|dd]; try exact F.
  destruct (list_eq_dec Nat.eq_dec (nshape y) (nshape z)) as [Es|]; [|exact F].
  destruct G as [G _]. unfold write, hret. split; [auto|]. unfold shows in G.
  assert (La : a < length h) by (apply (peek_bound h (OArr a []) _ G); now left).
  split; [cbn; unfold look; rewrite set_cell_same by auto; reflexivity|]. right. exists a, y, z. repeat split; auto.
  - now rewrite set_cell_length.
  - intros b Nb _. apply set_cell_other. auto.
Qed.
Lemma in_place_right x (f : eqn V) : right f (in_place x f).
Proof.
  apply way. intros args pargs h w S1. pose proof (in_place_body x f args pargs h w S1) as X.
  destruct (in_place x f args h w) as [[[o|e] h'] w1]; destruct (e_body f pargs w) as [[p|e'] w2]; tauto.
Qed.
Lemma in_place_time (f : eqn V) : behaves true f (in_place "time" f).
Proof.
  apply behaves_body. intros args pargs h w S1. pose proof (in_place_body "time" f args pargs h w S1) as X.
  destruct (in_place "time" f args h w) as [[[o|e] h'] w1]; destruct (e_body f pargs w) as [[p|e'] w2]; try tauto.
  destruct X as (-> & So & [K|(a & y & z & Ea & Ey & -> & Ez & K)]); split; auto; split; auto. right. split; [auto|]. split.
  - eapply keeps_weak; [|exact K]. intros b _ Nb ->. apply Nb. exists []. exact Ea.
  - unfold like_time. now rewrite Ey.
Qed.
Lemma convert_first_right x g (f : eqn V) : right f (convert_first x g f).
Proof.
  apply way. intros args pargs h w S1. unfold convert_first, hbind at 1, loadd. rewrite S1.
  assert (F : forall h', match hbind (hpure (e_body f pargs)) new h' w, e_body f pargs w with
    | (Ok o, h', w1), (Ok p, w2) => w1 = w2 /\ peek h' o = Ok p
    | (Err e, _, w1), (Err e', w2) => e = e' /\ w1 = w2
    | _, _ => False
    end).
  { intros h'. unfold hbind, hpure. destruct (e_body f pargs w) as [[p|e] w1]; [|auto].
    unfold new. destruct (put h' p) as [o h2] eqn:E. destruct (put_spec _ _ _ _ E) as (K & Z & _). auto. }
  destruct (dget args x) as [[v|v|a [|k ks]|dd]|]; try apply F. destruct (dget pargs x) as [[v|v|y|dd]|]; try apply F.
Qed.
End Ways.
