(** Running on arrays and computing with values side by side. *)
From Coq Require Import Lia.
From Verif Require Import M_Base M_Num M_Nd M_Time M_TestSpec M_Device M_Report M_Env M_Minimize M_Sim M_InPlace S_InPlace L_Base L_InPlace.
Open Scope nat_scope.

Section Sim.
Context {V : Type} `{NumOps V}.
Implicit Types (h : heap V).

(** The same outcome and random numbers, and the arrays in [P] kept. *)
Definition sim {A B} (P : nat -> Prop) (R : heap V -> A -> B -> Prop) h (hm : HM V A) (m : M B) : Prop :=
  forall w, match hm h w, m w with
  | (Ok a, h', w1), (Ok b, w2) => w1 = w2 /\ keeps P h h' /\ R h' a b
  | (Err e, h', w1), (Err e', w2) => e = e' /\ w1 = w2 /\ keeps P h h'
  | _, _ => False
  end.
Definition same {A} : heap V -> A -> A -> Prop := fun _ a b => a = b.
Definition shows : heap V -> oval V -> pyval V -> Prop := fun h o p => peek h o = Ok p.
Definition showsd : heap V -> dict (oval V) -> dict (pyval V) -> Prop := fun h o p => peekd h o = Ok p.
Definition below (n : nat) : nat -> Prop := fun a => a < n.

Lemma sim_bind {A A' B B'} (P P1 P2 : nat -> Prop) (R : heap V -> A -> B -> Prop) (R' : heap V -> A' -> B' -> Prop) h hm m k k' :
  sim P1 R h hm m -> (forall h' a b, keeps P1 h h' -> R h' a b -> sim P2 R' h' (k a) (k' b)) ->
  (forall a, a < length h -> P a -> P1 a /\ P2 a) ->
  sim P R' h (hbind hm k) (bind m k').
Proof.
  intros S1 S2 I w. unfold hbind, bind. specialize (S1 w).
  destruct (hm h w) as [[[a|e] h1] w1]; destruct (m w) as [[b|e'] w2]; try tauto.
  - destruct S1 as (-> & K & Rb). specialize (S2 h1 a b K Rb w2).
    assert (K1 : keeps P h h1) by (eapply keeps_weak; [|exact K]; intros; now apply I).
    destruct (k a h1 w2) as [[[a'|e'] h2] w3]; destruct (k' b w2) as [[b'|e''] w4]; try tauto.
    + destruct S2 as (-> & K2 & ?). split; [auto|]. split; [|auto]. split; [destruct K, K2; lia|].
      intros x Px Lx. destruct K2 as [L2 K2]. destruct K1 as [L1 K1]. rewrite K2; [auto|now apply I|lia].
    + destruct S2 as (-> & -> & K2). split; [auto|]. split; [auto|]. split; [destruct K, K2; lia|].
      intros x Px Lx. destruct K2 as [L2 K2]. destruct K1 as [L1 K1]. rewrite K2; [auto|now apply I|lia].
  - destruct S1 as (-> & -> & K). split; [auto|]. split; [auto|]. eapply keeps_weak; [|exact K]. intros. now apply I.
Qed.
Lemma sim_then {A A' B B'} P (R : heap V -> A -> B -> Prop) (R' : heap V -> A' -> B' -> Prop) h hm m k k' :
  sim P R h hm m -> (forall h' a b, keeps P h h' -> R h' a b -> sim P R' h' (k a) (k' b)) -> sim P R' h (hbind hm k) (bind m k').
Proof. intros S1 S2. eapply sim_bind; eauto. Qed.
Lemma sim_ret {A B} P (R : heap V -> A -> B -> Prop) h a b : R h a b -> sim P R h (hret a) (ret b).
Proof. intros Rab w. cbn. split; [auto|]. split; [apply keeps_refl|auto]. Qed.
Lemma sim_raise {A B} P (R : heap V -> A -> B -> Prop) h e : sim P R h (hraise e) (raise e).
Proof. intros w. cbn. repeat split; auto; lia. Qed.
Lemma sim_lift {A B} P (R : heap V -> A -> B -> Prop) h (r : res A) (q : res B) :
  match r, q with Ok a, Ok b => R h a b | Err e, Err e' => e = e' | _, _ => False end -> sim P R h (hlift r) (lift q).
Proof. intros X w. cbn. destruct r, q; try tauto; repeat split; auto; lia. Qed.
Lemma sim_lift_same {A} P h (r : res A) : sim P same h (hlift r) (lift r).
Proof. apply sim_lift. destruct r; reflexivity. Qed.
Lemma sim_pure {A} P h (m : M A) : sim P same h (hpure m) m.
Proof. intros w. unfold hpure. destruct (m w) as [[a|e] w1]; repeat split; auto; lia. Qed.
Lemma sim_weak {A B} (P Q : nat -> Prop) (R R' : heap V -> A -> B -> Prop) h hm m :
  sim Q R h hm m -> (forall a, a < length h -> P a -> Q a) -> (forall h' a b, keeps Q h h' -> R h' a b -> R' h' a b) -> sim P R' h hm m.
Proof.
  intros S1 I J w. specialize (S1 w). destruct (hm h w) as [[[a|e] h1] w1]; destruct (m w) as [[b|e'] w2]; try tauto.
  - destruct S1 as (? & K & ?). repeat split; auto; try apply K. intros. apply K; auto.
  - destruct S1 as (? & ? & K). repeat split; auto; try apply K. intros. apply K; auto.
Qed.
Lemma sim_sub {A B} (P Q : nat -> Prop) (R : heap V -> A -> B -> Prop) h hm m :
  sim Q R h hm m -> (forall a, a < length h -> P a -> Q a) -> sim P R h hm m.
Proof. intros S1 I. eapply sim_weak; eauto. Qed.
(** What comes after a value is read. *)
Lemma sim_load {A B} P (R : heap V -> A -> B -> Prop) h o p k m : shows h o p -> sim P R h (k p) m -> sim P R h (hbind (load o) k) m.
Proof. intros E S1 w. unfold hbind, load. rewrite E. apply S1. Qed.
Lemma sim_loadd {A B} P (R : heap V -> A -> B -> Prop) h o p k m : showsd h o p -> sim P R h (k p) m -> sim P R h (hbind (loadd o) k) m.
Proof. intros E S1 w. unfold hbind, loadd. rewrite E. apply S1. Qed.
Lemma sim_new {A B} (P Q : nat -> Prop) (R : heap V -> A -> B -> Prop) h p k m :
  (forall h' o, keeps every h h' -> shows h' o p -> (forall a, In a (addrs o) -> length h <= a) -> sim Q R h' (k o) m) ->
  (forall a, a < length h -> P a -> Q a) -> sim P R h (hbind (new p) k) m.
Proof.
  intros S1 I w. unfold hbind, new. destruct (put h p) as [o h'] eqn:E. destruct (put_spec _ _ _ _ E) as (K & Z & B1).
  specialize (S1 h' o K Z B1 w). destruct (k o h' w) as [[[a|e] h1] w1]; destruct (m w) as [[b|e'] w2]; try tauto.
  - destruct S1 as (? & K2 & ?). repeat split; auto; try (destruct K, K2; lia). intros x Px Lx.
    destruct K as [L K]. destruct K2 as [L2 K2]. rewrite K2; [apply K; [exact Logic.I|auto]|auto|lia].
  - destruct S1 as (? & ? & K2). repeat split; auto; try (destruct K, K2; lia). intros x Px Lx.
    destruct K as [L K]. destruct K2 as [L2 K2]. rewrite K2; [apply K; [exact Logic.I|auto]|auto|lia].
Qed.
Lemma sim_newd {A B} (P Q : nat -> Prop) (R : heap V -> A -> B -> Prop) h p k m :
  (forall h' o, keeps every h h' -> showsd h' o p -> (forall a, In a (addrsd o) -> length h <= a) -> sim Q R h' (k o) m) ->
  (forall a, a < length h -> P a -> Q a) -> sim P R h (hbind (newd p) k) m.
Proof.
  intros S1 I w. unfold hbind, newd. destruct (putd h p) as [o h'] eqn:E. destruct (putd_spec _ _ _ _ E) as (K & Z & B1).
  specialize (S1 h' o K Z B1 w). destruct (k o h' w) as [[[a|e] h1] w1]; destruct (m w) as [[b|e'] w2]; try tauto.
  - destruct S1 as (? & K2 & ?). repeat split; auto; try (destruct K, K2; lia). intros x Px Lx.
    destruct K as [L K]. destruct K2 as [L2 K2]. rewrite K2; [apply K; [exact Logic.I|auto]|auto|lia].
  - destruct S1 as (? & ? & K2). repeat split; auto; try (destruct K, K2; lia). intros x Px Lx.
    destruct K as [L K]. destruct K2 as [L2 K2]. rewrite K2; [apply K; [exact Logic.I|auto]|auto|lia].
Qed.
Lemma sim_new_end P h p : sim P (fun h' o q => shows h' o q /\ forall a, In a (addrs o) -> length h <= a) h (new p) (ret p).
Proof.
  intros w. unfold new. destruct (put h p) as [o h'] eqn:E. destruct (put_spec _ _ _ _ E) as (K & Z & B). cbn.
  split; [auto|]. split; [eapply keeps_weak; [|exact K]; intros; exact I|]. auto.
Qed.
Lemma sim_try {A B} (P Q : nat -> Prop) (R : heap V -> A -> B -> Prop) h hm m k k' :
  sim P R h hm m -> (forall w h' w', hm h w = (Err ValueError, h', w') -> keeps Q h h') ->
  (forall h', keeps Q h h' -> sim P R h' k k') -> (forall a, a < length h -> P a -> Q a) ->
  sim P R h (htry hm k) (try_value_error m k').
Proof.
  intros S1 V1 S2 I w. unfold htry, try_value_error. specialize (S1 w). pose proof (V1 w) as V2.
  destruct (hm h w) as [[[a|e] h1] w1]; destruct (m w) as [[b|e'] w2]; try tauto.
  destruct S1 as (<- & <- & K). destruct e; try (repeat split; auto; apply K).
  specialize (V2 h1 w1 eq_refl). specialize (S2 h1 V2 w1).
  assert (K1 : keeps P h h1) by (eapply keeps_weak; eauto).
  destruct (k h1 w1) as [[[a|e] h2] w3]; destruct (k' w1) as [[b|e'] w4]; try tauto.
  - destruct S2 as (? & K2 & ?). repeat split; auto; try (destruct K1, K2; lia). intros x Px Lx. destruct K1 as [L1 K1], K2 as [L2 K2]. rewrite K2; auto; lia.
  - destruct S2 as (? & ? & K2). repeat split; auto; try (destruct K1, K2; lia). intros x Px Lx. destruct K1 as [L1 K1], K2 as [L2 K2]. rewrite K2; auto; lia.
Qed.
(** A fold with an invariant that survives everything that keeps [P]. *)
Lemma sim_foldM {X A B} (P : nat -> Prop) (I : heap V -> Prop) (R : heap V -> A -> B -> Prop) (f : A -> X -> HM V A) (g : B -> X -> M B) l :
  (forall h x a b, In x l -> I h -> R h a b -> sim P (fun h' a' b' => R h' a' b') h (f a x) (g b x)) ->
  (forall h h', I h -> keeps P h h' -> I h') ->
  forall h a b, I h -> R h a b -> sim P R h (hfoldM f l a) (foldM g l b).
Proof.
  induction l as [|x r IH]; intros S1 Ik h a b Ih Rab; cbn; [now apply sim_ret|].
  eapply sim_then; [apply S1; auto; now left|]. intros h' a' b' K R1. apply IH; eauto. intros. apply S1; auto. now right.
Qed.
Lemma sim_mapM {X B} (P : nat -> Prop) (I : heap V -> Prop) (f : X -> HM V B) (g : X -> M B) l :
  (forall h x, In x l -> I h -> sim P same h (f x) (g x)) -> (forall h h', I h -> keeps P h h' -> I h') ->
  forall h, I h -> sim P same h (hmapM f l) (mapM g l).
Proof.
  induction l as [|x r IH]; intros S1 Ik h Ih; cbn; [now apply sim_ret|].
  eapply sim_then; [apply S1; auto; now left|]. intros h' a' b' K ->.
  eapply sim_then; [apply IH; eauto; intros; apply S1; auto; now right|]. intros h2 a b K2 ->. now apply sim_ret.
Qed.

(** ** Dictionaries *)
Definition rel1 h (x : string * oval V) (y : string * pyval V) : Prop := fst x = fst y /\ shows h (snd x) (snd y).
Lemma showsd_rel h d p : showsd h d p <-> Forall2 (rel1 h) d p.
Proof.
  unfold showsd. revert p. induction d as [|[k v] r IH]; intros p; cbn.
  - split; [intros E; injection E as <-; constructor|]. intros F. inversion F. reflexivity.
  - split.
    + destruct (peek h v) eqn:E; [|discriminate]. cbn. destruct (peekd h r) eqn:E2; [|discriminate]. cbn. intros Z. injection Z as <-.
      constructor; [split; auto|]. now apply IH.
    + intros F. inversion F as [|? [k' y] ? r' [Ek Es] F2]; subst. cbn in *. subst k'. unfold shows in Es. rewrite Es. cbn. apply IH in F2. now rewrite F2.
Qed.
Lemma showsd_get h d p x : showsd h d p ->
  match dget d x, dget p x with Some o, Some q => shows h o q /\ (forall a, In a (addrs o) -> In a (addrsd d)) | None, None => True | _, _ => False end.
Proof.
  intros F. apply showsd_rel in F. induction F as [|[k o] [k' q] r s [E S1] F IH]; cbn; [exact I|].
  cbn in E. subst k'. destruct (String.eqb x k).
  - split; [auto|]. intros a Ia. apply in_or_app. auto.
  - destruct (dget r x), (dget s x); try tauto. destruct IH as [? IH]. split; [auto|]. intros a Ia. apply in_or_app. auto.
Qed.
Lemma showsd_mem h d p x : showsd h d p -> dmem d x = dmem p x.
Proof. intros F. pose proof (showsd_get h d p x F). unfold dmem. destruct (dget d x), (dget p x); tauto. Qed.
Lemma showsd_keys h d p : showsd h d p -> dkeys d = dkeys p.
Proof. intros F. apply showsd_rel in F. unfold dkeys. induction F as [|[k o] [k' q] r s [E _] F IH]; cbn; [auto|]. cbn in E. congruence. Qed.
Lemma showsd_set h d p x o q : showsd h d p -> shows h o q -> showsd h (dset d x o) (dset p x q).
Proof.
  rewrite !showsd_rel. intros F S1. induction F as [|[k v] [k' v'] r s [E S2] F IH]; cbn.
  - constructor; [split; auto|constructor].
  - cbn in E. subst k'. destruct (String.eqb x k); constructor; auto; split; auto.
Qed.
Lemma addrsd_set (d : dict (oval V)) x o a : In a (addrsd (dset d x o)) -> In a (addrs o) \/ In a (addrsd d).
Proof.
  induction d as [|[k v] r IH]; cbn; [rewrite app_nil_r; auto|]. destruct (String.eqb x k); cbn; rewrite !in_app_iff; tauto.
Qed.
Lemma getE_sim P h d p x : showsd h d p -> sim P shows h (hlift (dgetE d x)) (lift (dgetE p x)).
Proof. intros F. apply sim_lift. pose proof (showsd_get h d p x F). unfold dgetE. destruct (dget d x), (dget p x); tauto. Qed.

Lemma gather_shows h args : forall so sp acc pacc, Forall2 (showsd h) so sp -> showsd h acc pacc ->
  showsd h (hgather args so acc) (gather args sp pacc).
Proof.
  induction args as [|x r IH]; intros so sp acc pacc F A; cbn; [auto|]. apply IH; [auto|].
  set (look := fix look (s : list (dict (pyval V))) := match s with [] => None | d :: s' => match dget d x with Some v => Some v | None => look s' end end).
  assert (E : match find_in x so, look sp with Some o, Some q => shows h o q | None, None => True | _, _ => False end).
  { clear -F. induction F as [|d p so sp S1 F IH]; cbn; [exact I|]. pose proof (showsd_get h d p x S1) as G.
    destruct (dget d x), (dget p x); try tauto. }
  destruct (find_in x so), (look sp); try tauto. now apply showsd_set.
Qed.
Lemma gather_addrs args (so : list (dict (oval V))) acc a : In a (addrsd (hgather args so acc)) -> In a (addrsd acc) \/ exists d, In d so /\ In a (addrsd d).
Proof.
  revert acc. induction args as [|x r IH]; intros acc I; cbn in I; [auto|]. apply IH in I as [I|I]; [|auto].
  destruct (find_in x so) as [v|] eqn:E; [|auto]. apply addrsd_set in I as [I|I]; [|auto]. right.
  clear -E I. induction so as [|d so IH]; cbn in E; [discriminate|]. destruct (dget d x) eqn:G.
  - injection E as ->. exists d. split; [now left|]. apply dget_In in G. apply in_flat_map. exists (x, v). auto.
  - destruct (IH E) as (d' & I1 & I2). exists d'. split; [now right|auto].
Qed.
Lemma gather_time args (so : list (dict (oval V))) acc : (forall d, In d so -> dget d "time" = None) -> dget (hgather args so acc) "time" = dget acc "time".
Proof.
  intros N. revert acc. induction args as [|x r IH]; intros acc; cbn; [auto|]. rewrite IH.
  destruct (find_in x so) as [v|] eqn:E; [|auto]. rewrite dget_dset. destruct (String.eqb x "time") eqn:Q; [|auto]. apply String.eqb_eq in Q. subst x. exfalso.
  clear -E N. induction so as [|d so IH]; cbn in E; [discriminate|]. rewrite N in E by now left. apply IH; auto. intros d' I. apply N. now right.
Qed.
Lemma add_own_shows h args : forall lo lp acc pacc, showsd h lo lp -> showsd h acc pacc ->
  showsd h (hadd_own args lo acc) (add_own args lp pacc).
Proof.
  induction args as [|x r IH]; intros lo lp acc pacc F A; cbn; [auto|]. apply IH; [auto|].
  rewrite (showsd_mem h acc pacc x A). destruct (dmem pacc x); [auto|]. pose proof (showsd_get h lo lp x F) as G.
  destruct (dget lo x), (dget lp x); try tauto. now apply showsd_set.
Qed.
Lemma has_dict_sim h o p : shows h o p -> match has_dict o, as_dict p with Ok d, Ok q => showsd h d q /\ addrsd d = addrs o | Err e, Err e' => e = e' | _, _ => False end.
Proof.
  unfold shows, showsd. destruct o as [v|v|a ks|d].
  - cbn. intros E. injection E as <-. reflexivity.
  - cbn. intros E. injection E as <-. reflexivity.
  - cbn. unfold look. destruct (nth_error h a) as [x|]; [|discriminate]. destruct (slices ks x); [|discriminate]. cbn. intros E. injection E as <-. reflexivity.
  - rewrite peek_dict. destruct (peekd h d) eqn:Z; [|discriminate]. cbn. intros E. injection E as <-. split; [exact Z|reflexivity].
Qed.

(** ** Calls *)
Lemma shows_keep h h' o p P : shows h o p -> keeps P h h' -> (forall a, a < length h -> In a (addrs o) -> P a) -> shows h' o p.
Proof.
  intros E K B. eapply (peek_keep (fun a => P a \/ length h <= a)); [exact E| |].
  - split; [apply K|]. intros a [Pa|?] L; [now apply K|lia].
  - intros a Ia. destruct (Nat.lt_ge_cases a (length h)); auto.
Qed.
Lemma showsd_keep h h' o p P : showsd h o p -> keeps P h h' -> (forall a, a < length h -> In a (addrsd o) -> P a) -> showsd h' o p.
Proof.
  intros E K B. eapply (peekd_keep (fun a => P a \/ length h <= a)); [exact E| |].
  - split; [apply K|]. intros a [Pa|?] L; [now apply K|lia].
  - intros a Ia. destruct (Nat.lt_ge_cases a (length h)); auto.
Qed.

Definition spared (tw : bool) (P : nat -> Prop) (args : dict (oval V)) : Prop :=
  tw = true -> forall a, time_cell args a -> ~ P a.

Lemma call_sim tw f b P h args pargs : behaves tw f b -> showsd h args pargs -> spared tw P args ->
  sim P shows h (hcall f b args) (call f pargs).
Proof.
  intros B S1 N w. specialize (B args pargs h w S1).
  destruct (hcall f b args h w) as [[[a|e] h1] w1]; destruct (call f pargs w) as [[p|e'] w2]; try tauto.
  - destruct B as (? & S2 & K). repeat split; auto; destruct K as [K|(T & K & _)]; try apply K; intros; apply K; auto; try exact I.
    intros T1. now apply (N T a0).
  - destruct B as (? & ? & K). repeat split; auto; destruct K as [K|(T & K & _)]; try apply K; intros; apply K; auto; try exact I.
    intros T1. now apply (N T a).
Qed.
Lemma call_value_error tw f b h args pargs w h' w' : behaves tw f b -> showsd h args pargs ->
  hcall f b args h w = (Err ValueError, h', w') -> keeps every h h'.
Proof.
  intros B S1 E. specialize (B args pargs h w S1). rewrite E in B. destruct (call f pargs w) as [[p|e'] w2]; [tauto|].
  destruct B as (_ & _ & [K|(_ & _ & N)]); [auto|congruence].
Qed.

Lemma time_addrs (args : dict (oval V)) a : time_cell args a -> In a (addrsd args).
Proof. intros [ks E]. apply dget_In in E. apply in_flat_map. exists ("time"%string, OArr a ks). split; [auto|now left]. Qed.

Lemma loop_sim tw f b h args pargs L C D : behaves tw f b -> showsd h args pargs ->
  sim (below (length h)) (fun h' o q => shows h' o q /\ forall a, In a (addrs o) -> length h <= a) h (hloop_compute f b args L C D) (loop_compute f pargs L C D).
Proof.
  intros B S1. unfold hloop_compute, loop_compute.
  eapply (sim_then _ same).
  - apply (sim_mapM _ (fun h' => keeps (below (length h)) h h')).
    + intros h1 idx _ K. destruct idx as [|i [|j [|k [|]]]]; try (intros w; cbn; repeat split; auto; lia).
      cbn. eapply sim_loadd.
      { eapply showsd_keep; [exact S1|exact K|]. intros a La _. exact La. }
      eapply sim_then; [apply sim_lift_same|]. intros h2 a b0 K2 ->.
      eapply (sim_newd _ (below (length h2))).
      * intros h3 oa K3 S3 Fr. eapply sim_then.
        { eapply (call_sim tw); eauto. intros _ x T. apply time_addrs in T. specialize (Fr x T). unfold below. lia. }
        intros h4 v q K4 S4. eapply sim_load; [exact S4|]. apply sim_lift_same.
      * intros x _ Px. unfold below in *. destruct K, K2. lia.
    + intros h1 h2 K1 K2. eapply keeps_trans; eauto.
    + apply keeps_refl.
  - intros h1 xs ys K ->. eapply sim_weak; [apply (sim_new_end (below (length h)))|auto|].
    intros h2 o q K2 [S2 Fr]. split; [auto|]. intros a Ia. specialize (Fr a Ia). destruct K. lia.
Qed.
Lemma call_or_loop_sim tw f b P h args pargs L C D : behaves tw f b -> showsd h args pargs -> spared tw P args ->
  sim P shows h (hcall_or_loop f b args L C D) (call_or_loop f pargs L C D).
Proof.
  intros B S1 N. unfold hcall_or_loop, call_or_loop. eapply (sim_try P every).
  - eapply call_sim; eauto.
  - intros w h' w' E. eapply call_value_error; eauto.
  - intros h' K. eapply (sim_weak P (below (length h'))).
    + eapply loop_sim; eauto. eapply showsd_keep; eauto. intros; exact I.
    + intros a La _. exact La.
    + intros h2 o q _ [S2 _]. exact S2.
  - intros; exact I.
Qed.
End Sim.
