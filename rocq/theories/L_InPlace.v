(** Lemmas about arrays as objects. *)
From Coq Require Import Lia.
From Verif Require Import M_Base M_Num M_Nd M_Time M_TestSpec M_Device M_Report M_Env M_Minimize M_Sim M_InPlace S_InPlace L_Base.
Open Scope nat_scope.

Section Heap.
Context {V : Type} `{NumOps V}.
Implicit Types (h : heap V).

Section OvalInd.
Variable P : oval V -> Prop.
Hypothesis Hn : forall v, P (ONum v).
Hypothesis Ho : forall v, P (OOth v).
Hypothesis Ha : forall a ks, P (OArr a ks).
Hypothesis Hd : forall d, Forall (fun kv => P (snd kv)) d -> P (ODict d).
Fixpoint oval_ind2 (o : oval V) : P o :=
  match o with
  | ONum v => Hn v
  | OOth v => Ho v
  | OArr a ks => Ha a ks
  | ODict d => Hd d ((fix go (d : list (string * oval V)) : Forall (fun kv => P (snd kv)) d :=
      match d with [] => Forall_nil _ | kv :: r => Forall_cons kv (oval_ind2 (snd kv)) (go r) end) d)
  end.
End OvalInd.

Section PyvalInd.
Variable P : pyval V -> Prop.
Hypothesis Hn : forall v, P (PNum v).
Hypothesis Ho : forall v, P (POth v).
Hypothesis Ha : forall a, P (PArr a).
Hypothesis Hd : forall d, Forall (fun kv => P (snd kv)) d -> P (PDict d).
Fixpoint pyval_ind3 (o : pyval V) : P o :=
  match o with
  | PNum v => Hn v
  | POth v => Ho v
  | PArr a => Ha a
  | PDict d => Hd d ((fix go (d : list (string * pyval V)) : Forall (fun kv => P (snd kv)) d :=
      match d with [] => Forall_nil _ | kv :: r => Forall_cons kv (pyval_ind3 (snd kv)) (go r) end) d)
  end.
End PyvalInd.

Fixpoint addrs (o : oval V) : list nat :=
  match o with
  | ONum _ | OOth _ => []
  | OArr a _ => [a]
  | ODict d => flat_map (fun kv => addrs (snd kv)) d
  end.
Definition addrsd (d : dict (oval V)) : list nat := flat_map (fun kv => addrs (snd kv)) d.

Lemma peek_dict h d : peek h (ODict d) = rbind (peekd h d) (fun d' => Ok (PDict d')).
Proof.
  cbn. f_equal. induction d as [|[k v] r IH]; [reflexivity|]. cbn. destruct (peek h v); cbn; [|reflexivity]. now rewrite IH.
Qed.
Lemma put_dict h d : put h (PDict d) = let '(d', h') := putd h d in (ODict d', h').
Proof.
  cbn. enough (E : forall h, (fix go (h : heap V) (d : list (string * pyval V)) : list (string * oval V) * heap V :=
                match d with
                | [] => ([], h)
                | (k, v) :: r => let '(x, h1) := put h v in let '(r', h2) := go h1 r in ((k, x) :: r', h2)
                end) h d = putd h d) by now rewrite E.
  induction d as [|[k v] r IH]; intros h0; [reflexivity|]. cbn. destruct (put h0 v) as [x h1]. rewrite IH. reflexivity.
Qed.
Lemma hreduce_dict h k d : hreduce_val h k (ODict d) = rbind (hreduce_dims h k d) (fun d' => Ok (Some (ODict d'))).
Proof.
  cbn. f_equal. induction d as [|[x v] r IH]; [reflexivity|]. cbn. destruct (hreduce_val h k v); cbn; [|reflexivity]. now rewrite IH.
Qed.
Lemma reduce_dict k (d : dict (pyval V)) : reduce_val k (PDict d) = rbind (reduce_dims k d) (fun d' => Ok (Some (PDict d'))).
Proof.
  cbn. f_equal. induction d as [|[x v] r IH]; [reflexivity|]. cbn. destruct (reduce_val k v); cbn; [|reflexivity]. now rewrite IH.
Qed.

(** ** keeps *)
Lemma keeps_refl P h : keeps P h h.
Proof. split; [lia|auto]. Qed.
Lemma keeps_trans P h1 h2 h3 : keeps P h1 h2 -> keeps P h2 h3 -> keeps P h1 h3.
Proof. intros [L1 K1] [L2 K2]. split; [lia|]. intros a Pa La. rewrite K2 by (auto; lia). auto. Qed.
Lemma keeps_weak (P Q : nat -> Prop) h1 h2 : (forall a, a < length h1 -> P a -> Q a) -> keeps Q h1 h2 -> keeps P h1 h2.
Proof. intros I [L K]. split; [auto|]. intros a Pa La. apply K; auto. Qed.
Lemma keeps_app P h g : keeps P h (h ++ g).
Proof. split; [rewrite app_length; lia|]. intros a _ La. now rewrite nth_error_app1. Qed.
Lemma set_cell_length h a x : length (set_cell h a x) = length h.
Proof. revert a. induction h as [|y r IH]; intros [|a]; cbn; auto. Qed.
Lemma set_cell_other h a b x : a <> b -> nth_error (set_cell h a x) b = nth_error h b.
Proof. revert a b. induction h as [|y r IH]; intros [|a] [|b] N; cbn; auto; congruence. Qed.
Lemma set_cell_same h a x : a < length h -> nth_error (set_cell h a x) a = Some x.
Proof. revert a. induction h as [|y r IH]; intros [|a] L; cbn in *; auto; try lia. apply IH. lia. Qed.
Lemma keeps_set P h a x : ~ P a -> keeps P h (set_cell h a x).
Proof. intros N. split; [now rewrite set_cell_length|]. intros b Pb _. apply set_cell_other. congruence. Qed.

(** ** peek *)
Lemma peek_bound h o : forall p, peek h o = Ok p -> forall a, In a (addrs o) -> a < length h.
Proof.
  induction o as [v|v|b ks|d IH] using oval_ind2; intros p E a I; cbn in I; try tauto.
  - destruct I as [<-|[]]. cbn in E. unfold look in E. destruct (nth_error h b) eqn:Z; [|discriminate]. apply nth_error_Some. congruence.
  - rewrite peek_dict in E. destruct (peekd h d) as [d'|] eqn:Z; [clear E p|discriminate].
    revert d' Z. induction IH as [|[k v] r P1 _ IHr]; intros d' Z; cbn in *; [tauto|].
    destruct (peek h v) eqn:Z1; [|discriminate]. cbn in Z. destruct (peekd h r) eqn:Z2; [|discriminate].
    apply in_app_or in I as [I|I]; eauto.
Qed.
Lemma peek_keep P h h' o : forall p, peek h o = Ok p -> keeps P h h' -> (forall a, In a (addrs o) -> P a) -> peek h' o = Ok p.
Proof.
  intros p E K Q. pose proof (peek_bound h o p E) as B. revert p E Q B. induction o as [v|v|b ks|d IH] using oval_ind2; intros p E Q B; auto.
  - cbn in *. unfold look in *. destruct K as [_ K]. rewrite K; auto.
  - rewrite peek_dict in *. destruct (peekd h d) as [d'|] eqn:Z; [|discriminate]. cbn in E.
    enough (peekd h' d = Ok d') as -> by exact E. clear E p. cbn in Q, B.
    revert d' Z Q B. induction IH as [|[k v] r P1 _ IHr]; intros d' Z Q B; cbn in *; [auto|].
    destruct (peek h v) as [x|] eqn:Z1; [|discriminate]. cbn in Z. destruct (peekd h r) as [y|] eqn:Z2; [|discriminate]. cbn in Z.
    rewrite (P1 x); auto; [|intros; apply Q, in_or_app; auto|intros; apply B, in_or_app; auto]. cbn.
    rewrite (IHr y); auto; [intros; apply Q, in_or_app; auto|intros; apply B, in_or_app; auto].
Qed.
Lemma peekd_keep P h h' d p : peekd h d = Ok p -> keeps P h h' -> (forall a, In a (addrsd d) -> P a) -> peekd h' d = Ok p.
Proof.
  intros E K Q. assert (X : peek h (ODict d) = Ok (PDict p)) by (rewrite peek_dict, E; reflexivity).
  pose proof (peek_keep P h h' (ODict d) _ X K Q) as Y. rewrite peek_dict in Y. destruct (peekd h' d); cbn in Y; congruence.
Qed.
Lemma peekd_bound h d p : peekd h d = Ok p -> forall a, In a (addrsd d) -> a < length h.
Proof.
  intros E. assert (X : peek h (ODict d) = Ok (PDict p)) by (rewrite peek_dict, E; reflexivity). exact (peek_bound h (ODict d) _ X).
Qed.

Lemma put_spec p : forall h o h', put h p = (o, h') -> keeps every h h' /\ peek h' o = Ok p /\ forall a, In a (addrs o) -> length h <= a.
Proof.
  induction p as [v|v|x|d IH] using pyval_ind3; intros h o h' E; cbn in E.
  - injection E as <- <-. split; [apply keeps_refl|]. split; [reflexivity|]. cbn. tauto.
  - injection E as <- <-. split; [apply keeps_refl|]. split; [reflexivity|]. cbn. tauto.
  - injection E as <- <-. split; [apply keeps_app|]. split; [cbn; unfold look; rewrite nth_error_app2, Nat.sub_diag by lia; reflexivity|]. cbn. intros a [<-|[]]. lia.
  - fold (put h (PDict d)) in E. change (put h (PDict d) = (o, h')) in E. rewrite put_dict in E. destruct (putd h d) as [d' h1] eqn:Z. injection E as <- <-.
    rewrite peek_dict. enough (keeps every h h1 /\ peekd h1 d' = Ok d /\ forall a, In a (addrsd d') -> length h <= a) as (K & -> & B) by auto.
    revert h d' h1 Z. induction IH as [|[k v] r P1 _ IHr]; intros h d' h1 Z; cbn in Z.
    + injection Z as <- <-. split; [apply keeps_refl|]. split; [reflexivity|]. cbn. tauto.
    + destruct (put h v) as [x h2] eqn:E1. destruct (putd h2 r) as [r' h3] eqn:E2. injection Z as <- <-.
      destruct (P1 _ _ _ E1) as (K1 & S1 & B1). destruct (IHr _ _ _ E2) as (K2 & S2 & B2).
      split; [eapply keeps_trans; eauto|]. split.
      * cbn. rewrite (peek_keep every h2 h3 x v S1 K2) by (intros; exact I). cbn. now rewrite S2.
      * cbn. intros a I. apply in_app_or in I as [I|I]; [auto|]. specialize (B2 a I). destruct K1. lia.
Qed.
Lemma putd_spec d h d' h' : putd h d = (d', h') -> keeps every h h' /\ peekd h' d' = Ok d /\ forall a, In a (addrsd d') -> length h <= a.
Proof.
  intros E. assert (X : put h (PDict d) = (ODict d', h')) by (rewrite put_dict, E; reflexivity).
  destruct (put_spec _ _ _ _ X) as (K & S1 & B). split; [auto|]. split; [|exact B]. rewrite peek_dict in S1. destruct (peekd h' d'); cbn in S1; congruence.
Qed.
End Heap.
