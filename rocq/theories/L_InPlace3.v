(** Mechanisms and parameters on arrays. *)
From Coq Require Import Lia.
From Verif Require Import M_Base M_Num M_Nd M_Time M_TestSpec M_Device M_Report M_Env M_Minimize M_Sim M_InPlace S_InPlace L_Base L_InPlace L_InPlace2.
Open Scope nat_scope.

Section Sim.
Context {V : Type} `{NumOps V}.
Implicit Types (h : heap V).

Lemma sim_ext {A B} P (R : heap V -> A -> B -> Prop) h hm m m' : (forall w, m' w = m w) -> sim P R h hm m -> sim P R h hm m'.
Proof. intros E S1 w. rewrite E. apply S1. Qed.
Lemma lift_rbind {A B} (r : res A) (k : A -> res B) w : lift (rbind r k) w = bind (lift r) (fun a => lift (k a)) w.
Proof. destruct r; reflexivity. Qed.
(** Reading a value and going on with it. *)
Lemma load_sim {B} P h o p (f : pyval V -> res B) : shows h o p ->
  sim P (fun h' a b => a = b /\ f p = Ok a /\ h' = h) h (hbind (load o) (fun x => hlift (f x))) (lift (f p)).
Proof. intros E w. unfold hbind, load, hlift, lift. rewrite E. destruct (f p); repeat split; auto; lia. Qed.

(** ** The search *)
Lemma eval_sim (I : heap V -> Prop) lg F G : (forall h h', I h -> keeps every h h' -> I h') ->
  (forall h ts, I h -> sim every same h (F ts) (G ts)) ->
  forall h xs, I h -> sim every same h (hevalF lg F xs) (evalF lg G xs).
Proof.
  intros Ik FG h xs Ih. unfold hevalF, evalF. eapply sim_then; [now apply FG|]. intros h' a b K ->.
  destruct (length b =? length xs); [now apply sim_ret|apply sim_raise].
Qed.
Lemma mloop_sim (I : heap V -> Prop) rt at_ lg F G : (forall h h', I h -> keeps every h h' -> I h') ->
  (forall h ts, I h -> sim every same h (F ts) (G ts)) ->
  forall n ss ev h, I h -> sim every same h (hmloop rt at_ lg F n ss ev) (mloop rt at_ lg G n ss ev).
Proof.
  intros Ik FG. induction n as [|n IH]; intros ss ev h Ih; cbn; destruct (forallb (converged rt at_) ss); try now apply sim_ret.
  eapply sim_then; [eapply eval_sim; eauto|]. intros h' a b K ->. apply IH. eauto.
Qed.
Lemma minimize_sim (I : heap V -> Prop) F G n lo hi pr me k lg : (forall h h', I h -> keeps every h h' -> I h') ->
  (forall h ts, I h -> sim every same h (F ts) (G ts)) ->
  forall h, I h -> sim every same h (hminimize F n lo hi pr me k lg) (minimize G n lo hi pr me k lg).
Proof.
  intros Ik FG h Ih. unfold hminimize, minimize, minimize_run. eapply sim_then.
  - unfold hmrun, mrun. eapply sim_then; [eapply eval_sim; eauto|]. intros h' a b K ->. eapply mloop_sim; eauto.
  - intros h' a b K ->. now apply sim_ret.
Qed.

(** ** Mechanisms *)
Lemma bshape_rev_same s : bshape_rev s s <> None.
Proof. induction s as [|a s IH]; cbn; [congruence|]. destruct (bshape_rev s s); [|tauto]. rewrite Nat.eqb_refl. congruence. Qed.
Lemma bshape_same s : bshape s s <> None.
Proof. unfold bshape. pose proof (bshape_rev_same (rev s)). destruct (bshape_rev (rev s) (rev s)); cbn; congruence. Qed.
Lemma bshape_nil_r s : bshape s [] = Some s.
Proof.
  unfold bshape. cbn. assert (E : bshape_rev (rev s) [] = Some (rev s)) by (destruct (rev s); reflexivity).
  rewrite E. cbn. now rewrite rev_involutive.
Qed.
Lemma pmap2_no_value_error f (c d : pyval V) a : to_nd c = Ok a ->
  match d with PArr b => nshape b = nshape a | _ => True end -> pmap2 f c d <> Err ValueError.
Proof.
  intros E X. unfold pmap2. rewrite E. cbn. destruct d as [v|v|b|dd]; cbn; try congruence.
  - unfold bmap2. cbn. rewrite bshape_nil_r. cbn. congruence.
  - unfold bmap2. cbn. rewrite bshape_nil_r. cbn. congruence.
  - unfold bmap2. rewrite X. pose proof (bshape_same (nshape a)). destruct (bshape (nshape a) (nshape a)); cbn; congruence.
Qed.

Definition no_time (d : dict (oval V)) : Prop := dget d "time" = None.
Lemma mech_args_shows m h t pt conds pconds lats plats : shows h t pt -> showsd h conds pconds -> showsd h lats plats ->
  showsd h (hmech_args m t conds lats) (mech_args m pt pconds plats).
Proof.
  intros S1 S2 S3. apply gather_shows; [repeat constructor; auto|]. apply showsd_rel. constructor; [split; auto|constructor].
Qed.
Lemma mech_args_time m t conds lats : no_time conds -> no_time lats -> dget (hmech_args m t conds lats) "time" = Some t.
Proof. intros N1 N2. unfold hmech_args. rewrite gather_time; [reflexivity|]. intros d [<-|[<-|[]]]; auto. Qed.
Lemma mech_spared m t conds lats tw : no_time conds -> no_time lats -> spared tw (fun a => ~ In a (addrs t)) (hmech_args m t conds lats).
Proof. intros N1 N2 _ a [ks T] N. rewrite mech_args_time in T by auto. injection T as ->. apply N. now left. Qed.

Definition newly (n : nat) : heap V -> oval V -> pyval V -> Prop := fun h o p => shows h o p /\ forall a, In a (addrs o) -> n <= a.

Lemma base_deg_sim m b h t pt pre ppre conds pconds lats plats L C D : behaves true (lm_eqn (mc_mdl m)) b ->
  shows h t pt -> shows h pre ppre -> showsd h conds pconds -> showsd h lats plats -> no_time conds -> no_time lats ->
  sim (fun a => ~ In a (addrs t)) same h (hbase_deg_vals m b t pre conds lats L C D) (base_deg_vals m pt ppre pconds plats L C D).
Proof.
  intros B St Sp Sc Sl Nc Nl. unfold hbase_deg_vals, base_deg_vals.
  eapply sim_then; [apply (load_sim _ _ _ _ to_nd St)|]. intros h1 x y _ (-> & _ & ->).
  eapply sim_then; [apply (load_sim _ _ _ _ to_nd Sp)|]. intros h1 x y' _ (-> & _ & ->).
  destruct (bshape (nshape y) (nshape y')) as [s|]; [|apply sim_raise].
  eapply sim_then; [eapply (call_or_loop_sim true); eauto; [apply mech_args_shows; eauto|apply mech_spared; auto]|].
  intros h1 o q K S1.
  eapply sim_then; [apply (load_sim _ _ _ _ to_nd S1)|]. intros h2 x y2 _ (-> & _ & ->).
  eapply sim_then; [apply sim_lift_same|]. intros h2 x y3 _ ->. now apply sim_ret.
Qed.
Lemma sim_new_ret P h p : sim P (newly (length h)) h (new p) (ret p).
Proof. apply sim_new_end. Qed.
Lemma sim_ret_bind {A B} P (R : heap V -> A -> B -> Prop) h hm (m : M B) : sim P R h hm (bind m ret) -> sim P R h hm m.
Proof. apply sim_ext. intros w. unfold bind. destruct (m w) as [[b|e] w1]; reflexivity. Qed.
Lemma mech_deg_sim m b h t pt pre ppre conds pconds lats plats L C D : behaves true (lm_eqn (mc_mdl m)) b ->
  shows h t pt -> shows h pre ppre -> showsd h conds pconds -> showsd h lats plats -> no_time conds -> no_time lats ->
  sim (fun a => ~ In a (addrs t)) (newly (length h)) h (hmech_deg_vals m b t pre conds lats L C D) (mech_deg_vals m pt ppre pconds plats L C D).
Proof.
  intros B St Sp Sc Sl Nc Nl. unfold hmech_deg_vals, mech_deg_vals. destruct (mc_kind m).
  - apply sim_ret_bind. eapply sim_then; [eapply base_deg_sim; eauto|]. intros h1 x y K ->.
    eapply sim_weak; [apply (sim_new_ret every)|intros; exact I|]. intros h2 o q K2 [S1 F]. split; [auto|]. intros a Ia. specialize (F a Ia). destruct K. lia.
  - eapply sim_then; [apply (load_sim _ _ _ _ to_nd Sp)|]. intros h1 x y' _ (-> & _ & ->).
    eapply sim_then; [eapply base_deg_sim; eauto|]. intros h1 x y K ->.
    eapply sim_then; [apply sim_lift_same|]. intros h2 x z K2 ->.
    eapply sim_then; [apply sim_lift_same|]. intros h3 x z2 K3 ->.
    eapply sim_weak; [apply (sim_new_ret every)|intros; exact I|]. intros h4 o q K4 [S1 F]. split; [auto|]. intros a Ia. specialize (F a Ia). destruct K, K2, K3. lia.
Qed.

(** Times that are numbers or arrays made after [n] others. *)
Definition time_from (n : nat) (o : oval V) : Prop := match o with ONum _ => True | OArr a ks => ks = [] /\ n <= a | _ => False end.
Lemma put_arr_or_num h p o h' : put h p = (o, h') -> match p with PNum _ | PArr _ => time_from (length h) o | _ => True end.
Proof. destruct p; cbn; auto; intros E; injection E as <- <-; cbn; auto. Qed.
Lemma of_nd_shape (a : nd V) : match of_nd a with PNum _ => nshape a = [] | PArr b => b = a | _ => False end.
Proof. unfold of_nd. destruct (nshape a) eqn:E; [|reflexivity]. destruct (ndata a) as [|v [|]] eqn:F; auto. Qed.

Lemma residue_sim m b h t ts cur pcur (a : nd V) conds pconds lats plats L C D : behaves true (lm_eqn (mc_mdl m)) b ->
  to_nd pcur = Ok a -> shows h t (of_nd (Nd (nshape a) ts)) -> shows h cur pcur -> showsd h conds pconds -> showsd h lats plats -> no_time conds -> no_time lats ->
  (forall x, In x (addrs cur) \/ In x (addrsd conds) \/ In x (addrsd lats) -> ~ In x (addrs t)) ->
  sim (fun a => ~ In a (addrs t)) same h (hresidue m b cur conds lats L C D t) (residue m pcur pconds plats L C D (of_nd (Nd (nshape a) ts))).
Proof.
  intros B Ea St Sp Sc Sl Nc Nl Dj. unfold hresidue, residue.
  set (f := lm_eqn (mc_mdl m)) in *. set (args := hmech_args m t conds lats). set (g := fun x y : V => nabs (nsub x y)).
  set (pargs := mech_args m (of_nd (Nd (nshape a) ts)) pconds plats).
  assert (Sa : showsd h args pargs) by (apply mech_args_shows; auto).
  assert (Ta : dget args "time" = Some t) by (apply mech_args_time; auto).
  assert (diff : forall h' o q, keeps (fun x => ~ In x (addrs t)) h h' -> shows h' o q ->
     sim (fun x => ~ In x (addrs t)) same h' (hbind (load o) (fun d => hbind (load cur) (fun c => hlift (pmap2 g c d)))) (lift (pmap2 g pcur q))).
  { intros h' o q K So. eapply sim_load; [exact So|]. eapply sim_load; [|apply sim_lift_same].
    eapply shows_keep; eauto. intros x _ Ix. apply Dj. auto. }
  eapply (sim_try _ every).
  - eapply sim_then; [eapply (call_sim true); eauto; apply mech_spared; auto|]. intros h1 o q K S1. now apply diff.
  - intros w h' w' E. unfold hbind at 1 in E. specialize (B args pargs h w Sa).
    destruct (hcall f b args h w) as [[[o|e] h1] w1] eqn:Ec.
    + destruct (call f pargs w) as [[q|e'] w2]; [|tauto]. destruct B as (-> & So & K).
      assert (K1 : keeps (fun x => ~ In x (addrs t)) h h1).
      { destruct K as [K|(_ & K & _)].
        - eapply keeps_weak; [|exact K]. intros; exact I.
        - eapply keeps_weak; [|exact K]. intros x _ Nx [ks T]. rewrite Ta in T. injection T as ->. apply Nx. now left. }
      assert (Scur : shows h1 cur pcur) by (eapply shows_keep; eauto; intros x _ Ix; apply Dj; auto).
      unfold hbind, load, hlift in E. rewrite So, Scur in E. injection E as E <- <-.
      destruct K as [K|(_ & K & Lk)]; [auto|]. unfold shows in St. unfold like_time in Lk.
      pose proof (showsd_get h args pargs "time" Sa) as G. rewrite Ta in G. destruct (dget pargs "time") as [pt|]; [|tauto]. destruct G as [G _].
      unfold shows in G. rewrite St in G. injection G as <-.
      pose proof (of_nd_shape (Nd (nshape a) ts)) as Z. destruct (of_nd (Nd (nshape a) ts)) as [v|v|u|dd]; try tauto.
      * eapply keeps_weak; [|exact K]. intros x _ _ [ks T]. rewrite Ta in T. injection T as ->. cbn in St. unfold look in St.
        destruct (nth_error h x); [|discriminate]. destruct (slices ks n); discriminate.
      * subst u. exfalso. eapply (pmap2_no_value_error g pcur q a Ea); [|exact E]. destruct q; auto.
    + destruct (call f pargs w) as [[q|e'] w2]; [tauto|]. injection E as -> <- <-. destruct B as (_ & _ & [K|(_ & _ & N)]); [auto|congruence].
  - intros h1 K. eapply (sim_bind _ (below (length h1))).
    + eapply (loop_sim true); eauto. eapply showsd_keep; eauto. intros; exact I.
    + intros h2 o q K2 [S2 _]. apply diff; auto. eapply keeps_trans; [eapply keeps_weak; [|exact K]; intros; exact I|].
      eapply keeps_weak; [|exact K2]. intros; assumption.
    + intros x Lx Px. split; auto.
  - intros; exact I.
Qed.
Lemma obj_sim m b h deg pdeg (a : nd V) conds pconds lats plats L C D ts : behaves true (lm_eqn (mc_mdl m)) b ->
  to_nd pdeg = Ok a -> shows h deg pdeg -> showsd h conds pconds -> showsd h lats plats -> no_time conds -> no_time lats ->
  sim every same h (hequiv_obj m b deg (nshape a) conds lats L C D ts) (equiv_obj m pdeg a pconds plats L C D ts).
Proof.
  intros B Ea Sp Sc Sl Nc Nl. unfold hequiv_obj, equiv_obj.
  eapply (sim_new _ (fun x => x < length h)); [|intros; assumption].
  intros h1 t K1 St Fr.
  assert (Up : forall x, x < length h -> ~ In x (addrs t)) by (intros x Lx Ix; specialize (Fr x Ix); lia).
  assert (S1 : shows h1 deg pdeg /\ showsd h1 conds pconds /\ showsd h1 lats plats).
  { repeat split; [eapply shows_keep; eauto|eapply showsd_keep; eauto|eapply showsd_keep; eauto]; intros; exact I. }
  destruct S1 as (Sp1 & Sc1 & Sl1).
  eapply sim_then.
  - apply (sim_sub _ (fun x => ~ In x (addrs t))); [|intros x _ Px; auto].
    eapply residue_sim; eauto.
    intros x Ix. apply Up. destruct Ix as [Ix|[Ix|Ix]]; [exact (peek_bound _ _ _ Sp x Ix)|exact (peekd_bound _ _ _ Sc x Ix)|exact (peekd_bound _ _ _ Sl x Ix)].
  - intros h2 x y K2 ->. eapply sim_then; [apply sim_lift_same|]. intros h3 z z' K3 ->.
    destruct (list_eq_dec Nat.eq_dec (nshape z') (nshape a)); [now apply sim_ret|apply sim_raise].
Qed.
Lemma equiv_time_sim m b h deg pdeg conds pconds lats plats L C D : behaves true (lm_eqn (mc_mdl m)) b ->
  shows h deg pdeg -> showsd h conds pconds -> showsd h lats plats -> no_time conds -> no_time lats ->
  sim every (fun h' o q => shows h' o q /\ time_from (length h) o) h (hmech_equiv_time m b deg conds lats L C D) (mech_equiv_time m pdeg pconds plats L C D).
Proof.
  intros B Sp Sc Sl Nc Nl. unfold hmech_equiv_time, mech_equiv_time.
  assert (fin : forall h' p, length h <= length h' -> match p with PNum _ | PArr _ => True | _ => False end ->
    sim every (fun h' o q => shows h' o q /\ time_from (length h) o) h' (new p) (ret p)).
  { intros h' p L' Sh w. unfold new. destruct (put h' p) as [o h2] eqn:E. destruct (put_spec _ _ _ _ E) as (K & S1 & _). apply put_arr_or_num in E.
    cbn. split; [auto|]. split; [auto|]. split; [auto|]. destruct p; try tauto; destruct o; cbn in *; try tauto; destruct E; split; auto; lia. }
  destruct (mc_kind m).
  - eapply sim_then; [apply (load_sim _ _ _ _ to_nd Sp)|]. intros h1 a a' _ (-> & Ea & ->).
    eapply sim_then.
    + apply (minimize_sim (fun h' => keeps every h h')).
      * intros h1 h2 K1 K2. eapply keeps_trans; eauto.
      * intros h1 ts K. eapply obj_sim; eauto; [eapply shows_keep; eauto|eapply showsd_keep; eauto|eapply showsd_keep; eauto]; intros; exact I.
      * apply keeps_refl.
    + intros h1 xs ys K ->. apply fin; [destruct K; lia|]. pose proof (of_nd_shape (Nd (nshape a') ys)). destruct (of_nd (Nd (nshape a') ys)); auto.
  - eapply sim_load; [exact Sp|]. destruct pdeg; try (apply sim_ret; split; [reflexivity|exact I]).
    apply fin; auto.
Qed.
End Sim.
