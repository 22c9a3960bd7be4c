(** Parameters and the simulator on arrays. *)
From Coq Require Import Lia.
From Verif Require Import M_Base M_Num M_Nd M_Time M_TestSpec M_Device M_Report M_Env M_Minimize M_Sim M_InPlace S_InPlace L_Base L_InPlace L_InPlace2 L_InPlace3.
Open Scope nat_scope.

Section Sim.
Context {V : Type} `{NumOps V}.
Implicit Types (h : heap V).

Lemma shows_every h h' o p : shows h o p -> keeps every h h' -> shows h' o p.
Proof. intros. eapply shows_keep; eauto. intros; exact I. Qed.
Lemma showsd_every h h' o p : showsd h o p -> keeps every h h' -> showsd h' o p.
Proof. intros. eapply showsd_keep; eauto. intros; exact I. Qed.
Lemma shows_lt h o p a : shows h o p -> In a (addrs o) -> a < length h.
Proof. intros S1. exact (peek_bound _ _ _ S1 a). Qed.
Lemma showsd_lt h o p a : showsd h o p -> In a (addrsd o) -> a < length h.
Proof. intros S1. exact (peekd_bound _ _ _ S1 a). Qed.
Lemma no_time_shown h o p : showsd h o p -> dget p "time" = None -> no_time o.
Proof. intros S1 N. pose proof (showsd_get h o p "time" S1) as G. rewrite N in G. unfold no_time. destruct (dget o "time"); tauto. Qed.

(** The latents of a mechanism. *)
Lemma lat_sim P h lats plats x : showsd h lats plats ->
  sim P (fun h' l pl => h' = h /\ showsd h l pl /\ dget plats x = Some (PDict pl)) h
    (hlift (rbind (dgetE lats x) has_dict)) (lift (rbind (dgetE plats x) as_dict)).
Proof.
  intros S1. apply sim_lift. pose proof (showsd_get h lats plats x S1) as G. unfold dgetE. destruct (dget lats x) as [o|], (dget plats x) as [q|]; try tauto; cbn; [|reflexivity].
  destruct G as [G _]. pose proof (has_dict_sim h o q G) as Z. destruct (has_dict o) as [l|e], (as_dict q) as [pl|e'] eqn:E; try tauto.
  destruct Z. split; [auto|]. split; [auto|]. destruct q; cbn in E; congruence.
Qed.
Lemma get_sim P h d p x : showsd h d p ->
  sim P (fun h' o q => h' = h /\ shows h o q /\ dget d x = Some o /\ dget p x = Some q) h (hlift (dgetE d x)) (lift (dgetE p x)).
Proof. intros F. apply sim_lift. pose proof (showsd_get h d p x F) as G. unfold dgetE. destruct (dget d x), (dget p x); tauto. Qed.
Lemma dget_addrs (d : dict (oval V)) x o a : dget d x = Some o -> In a (addrs o) -> In a (addrsd d).
Proof. intros E I. apply dget_In in E. apply in_flat_map. exists (x, o). auto. Qed.

Definition lats_free (plats : dict (pyval V)) : Prop := forall nm l, dget plats nm = Some (PDict l) -> dget l "time" = None.

(** ** Times *)
Definition times_from (n : nat) (d : dict (oval V)) : Prop := Forall (fun kv => time_from n (snd kv)) d /\ NoDup (addrsd d).
Lemma time_from_addrs n (o : oval V) a : time_from n o -> In a (addrs o) -> n <= a /\ o = OArr a [].
Proof. destruct o; cbn; try tauto. intros [-> L] [<-|[]]. auto. Qed.
Lemma times_from_addrs n (d : dict (oval V)) a : Forall (fun kv => time_from n (snd kv)) d -> In a (addrsd d) -> n <= a.
Proof. intros F I. apply in_flat_map in I as ([k o] & I1 & I2). rewrite Forall_forall in F. specialize (F _ I1). now apply (time_from_addrs n o). Qed.
Lemma time_from_weak n n' (o : oval V) : n <= n' -> time_from n' o -> time_from n o.
Proof. destruct o; cbn; auto. intros L [-> ?]. split; auto. lia. Qed.
Lemma times_cons n k o d : time_from n o -> times_from n d -> (forall a, In a (addrs o) -> ~ In a (addrsd d)) -> times_from n ((k, o) :: d).
Proof.
  intros T [F N] Dj. split; [constructor; auto|]. cbn. destruct o; cbn in *; try tauto. constructor; auto.
Qed.
Lemma times_inv n k o d : times_from n ((k, o) :: d) -> time_from n o /\ times_from n d /\ (forall a, In a (addrs o) -> ~ In a (addrsd d)).
Proof.
  intros [F N]. inversion F as [|? ? T F']; subst. cbn in T. split; [auto|]. cbn in N. destruct o as [v|v|b ks|dd]; cbn in *; try tauto.
  - split; [split; auto|tauto].
  - inversion N; subst. split; [split; auto|]. intros a [<-|[]]. auto.
Qed.
Lemma times_set n d x o : times_from n d -> time_from n o -> (forall a, In a (addrs o) -> ~ In a (addrsd d)) -> times_from n (dset d x o).
Proof.
  induction d as [|[k v] r IH]; intros T To Dj; cbn.
  - apply times_cons; auto.
  - apply times_inv in T as (Tv & Tr & Dv). destruct (String.eqb x k).
    + apply times_cons; auto. intros a Ia I. apply (Dj a Ia). cbn. apply in_or_app. auto.
    + apply times_cons; auto.
      * apply IH; auto. intros a Ia I. apply (Dj a Ia). cbn. apply in_or_app. auto.
      * intros a Ia I. apply addrsd_set in I as [I|I]; [|exact (Dv a Ia I)]. apply (Dj a I). cbn. apply in_or_app. auto.
Qed.
Lemma times_apart n d x y o o' a : times_from n d -> dget d x = Some o -> dget d y = Some o' -> In a (addrs o) -> In a (addrs o') -> x = y.
Proof.
  induction d as [|[k v] r IH]; intros T Ex Ey I I'; cbn in Ex, Ey; [discriminate|]. apply times_inv in T as (Tv & Tr & Dv).
  destruct (String.eqb x k) eqn:Qx; destruct (String.eqb y k) eqn:Qy.
  - apply String.eqb_eq in Qx, Qy. congruence.
  - injection Ex as ->. exfalso. eapply Dv; eauto. eapply dget_addrs; eauto.
  - injection Ey as ->. exfalso. eapply Dv; eauto. eapply dget_addrs; eauto.
  - eauto.
Qed.

Lemma iadd_sim h n o p c : n <= length h -> shows h o p -> time_from n o ->
  sim (fun a => ~ In a (addrs o)) (fun h' o' q => shows h' o' q /\ time_from n o' /\ forall a, In a (addrs o') -> In a (addrs o) \/ length h <= a) h
    (iadd o c) (lift (pmap2 nadd p (PNum c))).
Proof.
  intros Ln S1 T w. unfold iadd, hbind, load. rewrite S1. unfold hlift, lift. destruct (pmap2 nadd p (PNum c)) as [r|e] eqn:E.
  2: { repeat split; auto. }
  assert (R : match r with PNum _ | PArr _ => True | _ => False end).
  { unfold pmap2 in E. destruct (to_nd p) as [u|]; cbn in E; [|discriminate]. destruct (bmap2 nadd u (Nd [] [c])) as [x|]; cbn in E; [|discriminate].
    injection E as <-. pose proof (of_nd_shape x). destruct (of_nd x); auto. }
  assert (fin : match new r h w with (Ok a, h', w1) => w1 = w /\ keeps (fun a => ~ In a (addrs o)) h h' /\ shows h' a r /\ time_from n a /\
     (forall x, In x (addrs a) -> In x (addrs o) \/ length h <= x) | _ => False end).
  { unfold new. destruct (put h r) as [o' h'] eqn:Ep. destruct (put_spec _ _ _ _ Ep) as (K & S2 & Fr). apply put_arr_or_num in Ep.
    split; [auto|]. split; [eapply keeps_weak; [|exact K]; intros; exact I|]. split; [auto|]. split.
    - apply (time_from_weak n (length h)); auto. destruct r; tauto.
    - intros x Ix. right. auto. }
  destruct o as [v|v|a ks|d]; cbn in T; try tauto. destruct T as [-> La]. destruct r as [v|v|y|d]; try tauto.
  unfold write, hret. assert (Lt : a < length h) by (eapply shows_lt; [exact S1|now left]).
  split; [auto|]. split.
  - apply keeps_set. intros N. apply N. now left.
  - split; [unfold shows; cbn; unfold look; rewrite set_cell_same by auto; reflexivity|]. split; [cbn; auto|]. intros x Ix. now left.
Qed.

Fixpoint pdurs (p : degprm V) (dur : Z) (times : dict (pyval V)) : res (dict (pyval V)) :=
  match times with
  | [] => Ok []
  | (k, v) :: r =>
      rbind (dgetE (dp_mechs p) k) (fun m =>
      match unit_map (mc_unit m) with
      | None => Err UserConfigError
      | Some u => rbind (pmap2 nadd v (PNum (td_num u dur))) (fun t => rbind (pdurs p dur r) (fun r' => Ok ((k, t) :: r')))
      end)
  end.
Lemma durs_err (p : degprm V) dur l e :
  fold_left (fun (acc : res (dict (pyval V))) (kv : string * pyval V) =>
    rbind acc (fun d =>
    rbind (dgetE (dp_mechs p) (fst kv)) (fun m =>
    match unit_map (mc_unit m) with
    | None => Err UserConfigError
    | Some u => rbind (pmap2 nadd (snd kv) (PNum (td_num u dur))) (fun t => Ok (dset d (fst kv) t))
    end))) l (Err e) = Err e.
Proof. induction l; cbn; auto. Qed.
Lemma dset_mid {A} (a : dict A) k v r t : ~ In k (dkeys a) -> dset (a ++ (k, v) :: r) k t = a ++ (k, t) :: r.
Proof.
  induction a as [|[x y] a IH]; cbn; intros N; [now rewrite String.eqb_refl|].
  destruct (String.eqb k x) eqn:Q; [apply String.eqb_eq in Q; subst; tauto|]. rewrite IH; auto.
Qed.
Lemma durs_eq (p : degprm V) dur times : NoDup (dkeys times) -> add_durations p dur times = pdurs p dur times.
Proof.
  unfold add_durations. intros N.
  match goal with |- fold_left ?f _ _ = _ => set (F := f) end.
  assert (X : forall r a, NoDup (dkeys (a ++ r)) -> fold_left F r (Ok (a ++ r)) = rbind (pdurs p dur r) (fun r' => Ok (a ++ r'))).
  { induction r as [|[k v] r IH]; intros a Na; cbn [fold_left pdurs]; [cbn; reflexivity|].
    unfold F at 2. cbn [rbind fst snd]. destruct (dgetE (dp_mechs p) k) as [m|e]; cbn [rbind]; [|apply durs_err].
    destruct (unit_map (mc_unit m)) as [u|]; [|apply durs_err].
    destruct (pmap2 nadd v (PNum (td_num u dur))) as [t|e]; cbn [rbind]; [|apply durs_err].
    assert (Nk : ~ In k (dkeys a)).
    { unfold dkeys in *. rewrite map_app in Na. cbn in Na. apply NoDup_remove_2 in Na. intros I. apply Na. apply in_or_app. auto. }
    rewrite dset_mid by auto. specialize (IH (a ++ [(k, t)])). rewrite <- app_assoc in IH. cbn in IH. etransitivity; [apply IH|].
    - unfold dkeys in *. rewrite !map_app in *. cbn in *. auto.
    - destruct (pdurs p dur r); cbn; [|reflexivity]. now rewrite <- app_assoc. }
  specialize (X times [] N). cbn in X. etransitivity; [exact X|]. destruct (pdurs p dur times); reflexivity.
Qed.
Lemma durs_sim (p : degprm V) dur n : forall times ptimes h, n <= length h -> showsd h times ptimes -> times_from n times ->
  sim (fun a => ~ In a (addrsd times)) (fun h' o q => showsd h' o q /\ times_from n o /\ forall a, In a (addrsd o) -> In a (addrsd times) \/ length h <= a) h
    (hadd_durations p dur times) (lift (pdurs p dur ptimes)).
Proof.
  induction times as [|[k o] r IH]; intros ptimes h Ln S1 T; pose proof S1 as S0; apply showsd_rel in S1; inversion S1 as [|? [k' q] ? pr [Ek So] Sr]; subst; cbn [hadd_durations pdurs].
  - apply sim_ret. split; [reflexivity|]. split; [auto|]. cbn. tauto.
  - cbn in Ek, So. subst k'. apply times_inv in T as (To & Tr & Dj).
    eapply sim_ext; [intros; apply lift_rbind|]. eapply sim_bind; [apply (sim_lift_same every)| |intros a _ Pa; split; [exact I|exact Pa]].
    intros h' m m' K ->. destruct (unit_map (mc_unit m')) as [u|]; [|apply sim_raise].
    assert (So' : shows h' o q) by (eapply shows_every; eauto).
    assert (Sr' : showsd h' r pr) by (eapply showsd_every; eauto; now apply showsd_rel).
    assert (Lh : length h <= length h') by (destruct K; lia).
    eapply sim_ext; [intros; apply lift_rbind|]. eapply (sim_bind _ (fun a => ~ In a (addrs o)) (fun a => ~ In a (addrsd r))).
    + apply (iadd_sim h' n); auto; lia.
    + intros h1 o' t K1 (So1 & To1 & Fo1). cbn beta.
      assert (Sr1 : showsd h1 r pr) by (eapply showsd_keep; eauto; intros a _ Ia Io; exact (Dj a Io Ia)).
      eapply sim_ext; [intros; apply lift_rbind|].
      assert (Oa : forall a, In a (addrs o') -> ~ In a (addrsd r)).
      { intros a Ia Ir. destruct (Fo1 a Ia) as [Io|Lo]; [exact (Dj a Io Ir)|]. pose proof (showsd_lt _ _ _ _ Sr' Ir). lia. }
      eapply sim_then.
      { apply IH; eauto. destruct K1; lia. }
      intros h2 r' pr' K2 (Sr2 & Tr2 & Fr2). apply sim_ret.
      assert (So2 : shows h2 o' t) by (eapply shows_keep; [exact So1|exact K2|]; intros a _ Ia; exact (Oa a Ia)).
      split; [apply showsd_rel; constructor; [split; auto|now apply showsd_rel]|]. split.
      * apply times_cons; auto. intros a Ia Ir. destruct (Fr2 a Ir) as [Ir'|Lr]; [exact (Oa a Ia Ir')|].
        pose proof (shows_lt _ _ _ _ So1 Ia). lia.
      * intros a. cbn. rewrite !in_app_iff. intros [Ia|Ia].
        -- destruct (Fo1 a Ia); [auto|right; lia].
        -- destruct (Fr2 a Ia); [auto|right; destruct K1; lia].
    + intros a _ Pa. split; intros Ia; apply Pa; cbn; apply in_or_app; auto.
Qed.

(** ** Parameters *)
Section Prm.
Variables (code : role -> impl V) (name : string) (p : degprm V).
Hypothesis Cm : forall nm m, In (nm, m) (dp_mechs p) -> behaves true (lm_eqn (mc_mdl m)) (code (RMech name nm)).
Hypothesis Co : behaves false (lm_eqn (dp_own p)) (code (ROwn name)).
Hypothesis Cc : behaves false (lm_eqn (dp_cond p)) (code (RCond name)).

Lemma equiv_times_sim h mvals pmvals conds pconds minit pminit lats plats L C D :
  showsd h mvals pmvals -> showsd h conds pconds -> showsd h minit pminit -> showsd h lats plats -> no_time conds -> lats_free plats ->
  sim every (fun h' o q => showsd h' o q /\ times_from (length h) o /\ dwf q) h
    (hprm_equiv_times code name p mvals conds minit lats L C D) (prm_equiv_times p pmvals pconds pminit plats L C D).
Proof.
  intros Sm Sc Si Sl Nc Fl. unfold hprm_equiv_times, prm_equiv_times.
  apply (sim_foldM every (fun h' => keeps every h h') (fun h' o q => showsd h' o q /\ times_from (length h) o /\ dwf q)).
  - intros h1 [nm m] acc pacc Im K (Sa & Ta & Wa). cbn [fst snd].
    eapply sim_then; [apply get_sim; eapply showsd_every; eauto|]. intros h2 v pv _ (-> & Sv & _ & _).
    eapply sim_then; [apply get_sim; eapply showsd_every; eauto|]. intros h2 v0 pv0 _ (-> & Sv0 & _ & _).
    eapply sim_then; [apply lat_sim; eapply showsd_every; eauto|]. intros h2 l pl _ (-> & Sl1 & El).
    eapply sim_then; [eapply equiv_time_sim; eauto|].
    + eapply showsd_every; eauto.
    + eapply no_time_shown; eauto.
    + intros h2 o q K2 (So & To). apply sim_ret. split; [apply showsd_set; auto; eapply showsd_every; eauto|]. split; [|now apply dwf_dset].
      apply times_set; auto.
      * eapply time_from_weak; [|exact To]. destruct K; lia.
      * intros a Ia Ib. pose proof (showsd_lt _ _ _ _ Sa Ib). destruct (time_from_addrs _ _ _ To Ia). lia.
  - intros h1 h2 K1 K2. eapply keeps_trans; eauto.
  - apply keeps_refl.
  - split; [reflexivity|]. split; [|constructor]. split; [constructor|constructor].
Qed.

Definition old (n : nat) (d : dict (oval V)) : Prop := forall a, In a (addrsd d) -> a < n.
Lemma deg_fold_sim n times ptimes conds pconds lats plats mvals pmvals L C D : times_from n times -> no_time conds -> lats_free plats ->
  old n conds -> old n lats -> old n mvals ->
  forall l, incl l (dp_mechs p) -> NoDup (map fst l) ->
  forall h acc pacc, n <= length h -> old (length h) times ->
    showsd h conds pconds -> showsd h lats plats -> showsd h mvals pmvals ->
    (forall x, In x (map fst l) -> match dget times x, dget ptimes x with Some o, Some q => shows h o q | None, None => True | _, _ => False end) ->
    showsd h (fst acc) (fst pacc) -> showsd h (snd acc) (snd pacc) ->
    (forall a, In a (addrsd (fst acc)) \/ In a (addrsd (snd acc)) -> ~ In a (addrsd times)) ->
  sim (below n) (fun h' (o : dict (oval V) * dict (oval V)) q => showsd h' (fst o) (fst q) /\ showsd h' (snd o) (snd q)) h
    (hfoldM (fun (acc : dict (oval V) * dict (oval V)) (nm : string * mech V) =>
            hbind (hlift (dgetE times (fst nm))) (fun t =>
            hbind (hlift (dgetE mvals (fst nm))) (fun v =>
            hbind (hlift (rbind (dgetE lats (fst nm)) has_dict)) (fun l =>
            hbind (hmech_deg_vals (snd nm) (code (RMech name (fst nm))) t v conds l L C D) (fun x =>
            hret (dset (fst acc) (fst nm) x, dset (snd acc) (fst nm) x)))))) l acc)
    (foldM (fun (acc : dict (pyval V) * dict (pyval V)) (nm : string * mech V) =>
           (t <- lift (dgetE ptimes (fst nm)) ;;
            v <- lift (dgetE pmvals (fst nm)) ;;
            l <- lift (rbind (dgetE plats (fst nm)) as_dict) ;;
            x <- mech_deg_vals (snd nm) t v pconds l L C D ;;
            ret (dset (fst acc) (fst nm) x, dset (snd acc) (fst nm) x))%m) l pacc).
Proof.
  intros Tt Nc Fl Oc Ol Om. induction l as [|[nm m] l IH]; intros Il Nl h acc pacc Ln Ot Sc Sl Sm St S1 S2 Dj; cbn [hfoldM foldM]; [apply sim_ret; auto|].
  cbn [fst snd]. eapply (sim_then _ (fun h' (o : dict (oval V) * dict (oval V)) q =>
     n <= length h' /\ old (length h') times /\ showsd h' conds pconds /\ showsd h' lats plats /\ showsd h' mvals pmvals /\
     (forall x, In x (map fst l) -> match dget times x, dget ptimes x with Some o, Some q => shows h' o q | None, None => True | _, _ => False end) /\
     showsd h' (fst o) (fst q) /\ showsd h' (snd o) (snd q) /\
     (forall a, In a (addrsd (fst o)) \/ In a (addrsd (snd o)) -> ~ In a (addrsd times)))).
  - pose proof (St nm (or_introl eq_refl)) as Sn.
    eapply (sim_then _ (fun h' o q => h' = h /\ shows h o q /\ dget times nm = Some o)).
    { apply sim_lift. unfold dgetE. destruct (dget times nm), (dget ptimes nm); tauto. }
    intros h1 t pt _ (-> & Sht & Et).
    eapply sim_then; [apply get_sim; eauto|]. intros h2 v pv _ (-> & Sv & _ & _).
    eapply sim_then; [apply lat_sim; eauto|]. intros h2 ls pls _ (-> & Sls & El).
    eapply (sim_bind _ (fun a => ~ In a (addrs t)) every).
    + eapply mech_deg_sim; eauto. apply Cm, Il. now left. eapply no_time_shown; eauto.
    + intros h1 x q K (Sx & Fx). apply sim_ret.
      assert (Ta : forall a, In a (addrs t) -> In a (addrsd times)) by (intros a Ia; eapply dget_addrs; eauto).
      assert (Lt : forall a, a < n -> ~ In a (addrs t)) by (intros a La Ia; apply Ta in Ia; destruct Tt as [Ft _]; pose proof (times_from_addrs _ _ _ Ft Ia); lia).
      assert (Lh : length h <= length h1) by (destruct K; lia). cbn [fst snd].
      split; [lia|]. split; [intros a Ia; specialize (Ot a Ia); lia|].
      split; [eapply showsd_keep; eauto; intros a _ Ia; apply Lt; auto|].
      split; [eapply showsd_keep; eauto; intros a _ Ia; apply Lt; auto|].
      split; [eapply showsd_keep; eauto; intros a _ Ia; apply Lt; auto|]. split.
      { intros y Iy. pose proof (St y (or_intror Iy)) as Sy. destruct (dget times y) as [oy|] eqn:Ey, (dget ptimes y) as [qy|]; try tauto.
        eapply shows_keep; eauto. intros a _ Ia It. assert (y = nm) by (eapply times_apart; eauto). subst y. inversion Nl; subst. tauto. }
      split; [apply showsd_set; auto; eapply showsd_keep; eauto; intros a _ Ia It; exact (Dj a (or_introl Ia) (Ta a It))|].
      split; [apply showsd_set; auto; eapply showsd_keep; eauto; intros a _ Ia It; exact (Dj a (or_intror Ia) (Ta a It))|].
      intros a Ia It. assert (Z : In a (addrs x) \/ In a (addrsd (fst acc)) \/ In a (addrsd (snd acc))).
      { destruct Ia as [Ia|Ia]; apply addrsd_set in Ia; tauto. }
      destruct Z as [Z|Z]; [|exact (Dj a Z It)]. specialize (Fx a Z). specialize (Ot a It). lia.
    + intros a _ La. split; [|exact I]. intros Ia. destruct Tt as [Ft _]. pose proof (times_from_addrs _ _ _ Ft (dget_addrs _ _ _ _ Et Ia)). unfold below in La. lia.
  - intros h1 a b K (L1 & O1 & C1 & La1 & M1 & T1 & A1 & A2 & D1). apply IH; auto.
    + intros x Ix. apply Il. now right.
    + now inversion Nl.
Qed.

Lemma deg_vals_sim h times ptimes conds pconds init pinit lats plats mvals pmvals n L C D :
  n <= length h -> times_from n times -> no_time conds -> lats_free plats -> NoDup (map fst (dp_mechs p)) ->
  old n conds -> old n lats -> old n mvals -> (forall a, In a (addrs init) -> a < n) ->
  showsd h times ptimes -> showsd h conds pconds -> showsd h lats plats -> showsd h mvals pmvals -> shows h init pinit ->
  sim (below n) (fun h' (o : oval V * dict (oval V)) q => shows h' (fst o) (fst q) /\ showsd h' (snd o) (snd q)) h
    (hprm_deg_vals code name p times conds init lats mvals L C D) (prm_deg_vals p ptimes pconds pinit plats pmvals L C D).
Proof.
  intros Ln Tt Nc Fl Nm Oc Ol Om Oi St Sc Sl Sm Si. unfold hprm_deg_vals, prm_deg_vals.
  eapply sim_then.
  - eapply (deg_fold_sim n); eauto.
    + apply incl_refl.
    + intros a Ia. exact (showsd_lt _ _ _ _ St Ia).
    + intros x _. pose proof (showsd_get h times ptimes x St). destruct (dget times x), (dget ptimes x); tauto.
    + cbn [fst]. apply showsd_rel. repeat constructor; auto.
    + reflexivity.
    + cbn [fst snd addrsd flat_map]. intros a Ia It. cbn in Ia. rewrite !app_nil_r in Ia. destruct Ia as [Ia|[]]. specialize (Oi a Ia).
      destruct Tt as [Ft _]. pose proof (times_from_addrs _ _ _ Ft It). lia.
  - intros h1 a b K [S1 S2].
    assert (Sl1 : showsd h1 lats plats) by (eapply showsd_keep; [exact Sl|exact K|]; intros x _ Ix; exact (Ol x Ix)).
    eapply (sim_bind _ every every).
    + eapply (call_or_loop_sim false); eauto; [apply add_own_shows; eauto|intros Z; discriminate].
    + intros h2 o q K2 So. apply sim_ret. split; [auto|]. cbn [snd]. eapply showsd_every; eauto.
    + intros; split; exact I.
Qed.

Lemma fold_units_shows h : forall (l : list (string * mech V)) a b, showsd h a b ->
  showsd h (fold_left (fun acc (nm : string * mech V) => dset acc (fst nm) (ONum (mc_unitary (snd nm)))) l a)
           (fold_left (fun acc (nm : string * mech V) => dset acc (fst nm) (PNum (mc_unitary (snd nm)))) l b).
Proof. induction l as [|x l IH]; intros a b S1; cbn; [auto|]. apply IH. apply showsd_set; auto. reflexivity. Qed.

(** Views. *)
Lemma slices_app ks k (a : nd V) : slices (ks ++ [k]) a = rbind (slices ks a) (fun b => nslice_third k b).
Proof. revert a. induction ks as [|x r IH]; intros a; cbn; [destruct (nslice_third k a); reflexivity|]. destruct (nslice_third x a); cbn; auto. Qed.
Lemma reduce_val_sim h k o : forall q, shows h o q ->
  match hreduce_val h k o, reduce_val k q with
  | Ok (Some o'), Ok (Some q') => shows h o' q'
  | Ok None, Ok None => True
  | Err e, Err e' => e = e'
  | _, _ => False
  end.
Proof.
  unfold shows. induction o as [v|v|a ks|d IH] using oval_ind2; intros q S1.
  - cbn in S1. injection S1 as <-. exact I.
  - cbn in S1. injection S1 as <-. exact I.
  - cbn in *. unfold look in *. destruct (nth_error h a) as [x|] eqn:Ex; [|discriminate]. rewrite slices_app. destruct (slices ks x) as [b|] eqn:Eb; [|discriminate].
    cbn in S1. injection S1 as <-. cbn. destruct (nslice_third k b) as [c|] eqn:Ec; cbn; [|reflexivity]. unfold look. rewrite Ex, slices_app, Eb. cbn. now rewrite Ec.
  - rewrite peek_dict in S1. destruct (peekd h d) as [pd|] eqn:Z; [|discriminate]. cbn in S1. injection S1 as <-.
    rewrite hreduce_dict, reduce_dict.
    assert (X : match hreduce_dims h k d, reduce_dims k pd with Ok o', Ok q' => showsd h o' q' | Err e, Err e' => e = e' | _, _ => False end).
    { clear -IH Z. revert pd Z. induction d as [|[x v] r IHr]; intros pd Z; cbn in Z.
      - injection Z as <-. reflexivity.
      - inversion IH as [|? ? Hv Hr]; subst. destruct (peek h v) as [pv|] eqn:Ev; [|discriminate]. cbn in Z. destruct (peekd h r) as [pr|] eqn:Er; [|discriminate].
        cbn in Z. injection Z as <-. cbn. cbn [snd] in Hv. specialize (Hv pv Ev). specialize (IHr Hr pr eq_refl).
        destruct (hreduce_val h k v) as [[ov|]|], (reduce_val k pv) as [[qv|]|]; try tauto; cbn; destruct (hreduce_dims h k r), (reduce_dims k pr); try tauto; cbn; auto.
        apply showsd_rel. constructor; [split; auto|now apply showsd_rel]. }
    destruct (hreduce_dims h k d), (reduce_dims k pd); cbn [rbind]; try tauto. rewrite peek_dict. unfold showsd in X. now rewrite X.
Qed.
Lemma reduced_sim P h k d pd : showsd h d pd -> sim P (fun h' o q => h' = h /\ showsd h o q) h (reduced k d) (lift (reduce_dims k pd)).
Proof.
  intros S1 w. unfold reduced, lift. assert (S2 : shows h (ODict d) (PDict pd)) by (unfold shows; rewrite peek_dict; unfold showsd in S1; now rewrite S1).
  pose proof (reduce_val_sim h k _ _ S2) as X. rewrite hreduce_dict, reduce_dict in X.
  destruct (hreduce_dims h k d), (reduce_dims k pd); cbn in X; try tauto.
  - split; [auto|]. split; [apply keeps_refl|]. split; [auto|]. unfold shows in X. rewrite peek_dict in X. unfold showsd. destruct (peekd h a); cbn in X; congruence.
  - split; [auto|]. split; [auto|apply keeps_refl].
Qed.

Lemma cond_shifted_sim h conds pconds deg pdeg lats plats L C K :
  showsd h conds pconds -> shows h deg pdeg -> showsd h lats plats ->
  sim every shows h (hcond_shifted code name p conds deg lats L C K) (cond_shifted p pconds pdeg plats L C K).
Proof.
  intros Sc Sd Sl. unfold hcond_shifted, cond_shifted.
  eapply sim_then; [apply (load_sim _ _ _ _ third_dim Sd)|]. intros h1 n n' _ (-> & _ & ->).
  assert (S0 : showsd h [("init"%string, deg); ("cond"%string, ODict [])] [("init"%string, pdeg); ("cond"%string, PDict [])]).
  { apply showsd_rel. repeat constructor; auto. }
  eapply (sim_then _ (fun h' (a : dict (oval V) * dict (oval V)) b => h' = h /\ showsd h (fst a) (fst b) /\ showsd h (snd a) (snd b))).
  - destruct (K <? n'); [|apply sim_ret; auto].
    eapply sim_ext; [intros; apply lift_rbind|]. eapply sim_then; [apply reduced_sim; eauto|]. intros h1 a b _ (-> & Sa).
    eapply sim_ext; [intros; apply lift_rbind|]. eapply sim_then; [apply reduced_sim; eauto|]. intros h1 a' b' _ (-> & Sa').
    apply sim_ret; auto.
  - intros h1 [a1 l1] [b1 m1] _ (-> & S1 & S2). cbn [fst snd] in *.
    eapply sim_then; [apply lat_sim; eauto|]. intros h1 cl pcl _ (-> & Scl & _).
    eapply sim_then; [unfold calc_cond_vals; eapply (call_or_loop_sim false); eauto; [apply gather_shows; [repeat constructor; auto|reflexivity]|intros Z; discriminate]|].
    intros h1 cv q K1 Scv. eapply (call_or_loop_sim false); eauto; [|intros Z; discriminate].
    apply add_own_shows; [eapply showsd_every; eauto|]. apply fold_units_shows. apply showsd_set; auto. eapply showsd_every; eauto.
Qed.
End Prm.
Lemma circ_sim (code : role -> impl V) name c h k conds pconds prms pprms lats plats : behaves false (lm_eqn c) (code (RCirc name)) ->
  showsd h conds pconds -> showsd h prms pprms -> showsd h lats plats ->
  sim every same h (hcirc_vals code name c k conds prms lats) (circ_vals c k pconds pprms plats).
Proof.
  intros B Sc Sp Sl. unfold hcirc_vals, circ_vals. eapply (sim_then _ same).
  - apply sim_ret_bind. eapply sim_then; [eapply (call_sim false); eauto; [apply gather_shows; [repeat constructor; auto|reflexivity]|intros Z; discriminate]|].
    intros h1 o q K S1. eapply (sim_ext _ _ _ _ (lift (Ok q))); [reflexivity|]. intros w. unfold load, lift. rewrite S1. split; [auto|]. split; [apply keeps_refl|reflexivity].
  - intros h1 x y K ->. destruct y; try apply sim_raise. apply sim_lift_same.
Qed.
End Sim.
