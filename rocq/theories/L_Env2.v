(** Lemmas about the conditions generated by an environment. *)
From Coq Require Import QArith Lia.
From Verif Require Import M_Base M_Num M_Nd M_RandVar M_Latent M_Time M_TestSpec M_Device M_Report M_Env
  S_Latent S_Device S_Env L_Base L_Nd L_Latent L_Device L_Device3 L_Env.
Open Scope nat_scope.

Section L.
Context {V : Type} `{NumOps V} `{Rng V} `{HashOrd}.
Implicit Types (e : env V).

(** The layers of a model only matter through the objects stored. *)
Definition fab (o : emdl V) (t : vtype) : emdl V :=
  EMdl (em_name o) (Some t) (unit_of t) (Some t) (em_bat o) true (em_chp o) true (em_dev o) true.
Definition fabs (o : emdl V) (t : vtype) : etold V := ETold t (Some (em_dev o)) (Some (em_chp o)) (Some (em_bat o)).
Lemma fab_rep o t : em_rep (fab o t) (fabs o t).
Proof. unfold em_rep, fab, fabs, stored; cbn. repeat split; eauto. Qed.

Lemma em_opE_ok o (f : V -> V -> V) : em_opE o = Ok f -> exists t, em_op o = Some t /\ f = op_of t.
Proof. unfold em_opE. destruct (em_op o) as [t|]; [|discriminate]. intros E. injection E as <-. eauto. Qed.

Lemma gen_batch_ok o base w b w' : gen_batch o base w = (Ok b, w') -> exists t xb, em_op o = Some t /\
  reads (em_bat o) 1 w [xb] w' /\ b = Nd [1] [combine t base xb].
Proof.
  intros E. assert (T : exists t, em_op o = Some t).
  { unfold gen_batch in E. apply bind_ok in E as (xs & w1 & _ & E). apply lift_ok in E as [E _].
    apply rbind_ok in E as (f & E & _). apply em_opE_ok in E as (t & E & _). eauto. }
  destruct T as [t T]. assert (E' : gen_batch (fab o t) base w = (Ok b, w')).
  { rewrite <- E. unfold gen_batch, em_opE. cbn [fab em_op em_bat]. now rewrite T. }
  rewrite (gen_batch_eq _ _ _ _ (fab_rep o t)) in E'. cbn [fab em_bat fabs et_type] in E'.
  destruct (sample (em_bat o) 1 w) as [[xs|ex] w1] eqn:Es; [|discriminate]. injection E' as <- <-.
  pose proof (sample_length _ _ _ _ _ Es) as L. destruct xs as [|xb [|? ?]]; cbn in L; try lia.
  exists t, xb. split; auto. split; [now apply sample_reads|reflexivity].
Qed.

Lemma gen_chp_ok o b C L w c w' : gen_chp o (Nd [1] [b]) C L w = (Ok c, w') -> exists t xs, em_op o = Some t /\
  reads (em_chp o) (C * L) w xs w' /\ c = Nd [L; C] (map (combine t b) xs) /\ length xs = L * C.
Proof.
  intros E. assert (T : exists t, em_op o = Some t).
  { unfold gen_chp in E. apply bind_lift_ok in E as (v & _ & E). apply bind_lift_ok in E as (f & Ef & _).
    apply em_opE_ok in Ef as (t & Ef & _). eauto. }
  destruct T as [t T]. assert (E' : gen_chp (fab o t) (Nd [1] [b]) C L w = (Ok c, w')).
  { rewrite <- E. unfold gen_chp, em_opE. cbn [fab em_op em_chp]. now rewrite T. }
  rewrite (gen_chp_eq _ _ _ _ _ _ (fab_rep o t)) in E'. cbn [fab em_chp fabs et_type] in E'.
  destruct (sample (em_chp o) (C * L) w) as [[xs|ex] w1] eqn:Es; [|discriminate]. injection E' as <- <-.
  pose proof (sample_length _ _ _ _ _ Es) as Ls. exists t, xs. split; auto. split; [now apply sample_reads|]. split; auto. lia.
Qed.

Lemma gen_dev_ok o bs L C D w a w' : length bs = L * C -> gen_dev o (Nd [L; C] bs) D w = (Ok a, w') -> exists t xs, em_op o = Some t /\
  reads (em_dev o) (D * (L * C)) w xs w' /\ nshape a = [L; C; D] /\ length (ndata a) = L * C * D /\
  forall l c d, l < L -> c < C -> d < D -> exists b x,
        nth_error bs (l * C + c) = Some b /\ nth_error xs ((l * C + c) * D + d) = Some x /\
        nth_error (ndata a) ((l * C + c) * D + d) = Some (combine t b x).
Proof.
  intros Hb E. assert (T : exists t, em_op o = Some t).
  { unfold gen_dev in E. apply bind_lift_ok in E as (f & Ef & _). apply em_opE_ok in Ef as (t & Ef & _). eauto. }
  destruct T as [t T]. assert (E' : gen_dev (fab o t) (Nd [L; C] bs) D w = (Ok a, w')).
  { rewrite <- E. unfold gen_dev, em_opE. cbn [fab em_op em_dev]. now rewrite T. }
  pose proof (gen_dev_eq _ _ bs L C D w (fab_rep o t) Hb) as G. cbn [fab em_dev fabs et_type] in G.
  destruct (sample (em_dev o) (D * (L * C)) w) as [[xs|ex] w1] eqn:Es.
  - destruct G as (a' & G & G1 & G2 & G3). rewrite G in E'. injection E' as -> ->.
    exists t, xs. split; auto. split; [now apply sample_reads|auto].
  - rewrite G in E'. discriminate.
Qed.

(** ** Chip level *)
Definition chip_of e C L (cond : string) (v0 : V) (b c : nd V) : Prop :=
  exists m t xb chps w1 w2 w3, vrtn_mdl e cond = Ok m /\ em_op m = Some t /\
    reads (em_bat m) 1 w1 [xb] w2 /\ reads (em_chp m) (C * L) w2 chps w3 /\
    b = Nd [1] [combine t v0 xb] /\ c = Nd [L; C] (map (combine t (combine t v0 xb)) chps) /\ length chps = L * C.

Lemma chip_conds_ok e C L base : forall acc w b c w', NoDup (dkeys base) ->
  foldM (fun (acc : dict (nd V) * dict (nd V)) (kv : string * V) =>
           (m <- lift (vrtn_mdl e (fst kv)) ;;
            b <- gen_batch m (snd kv) ;;
            c <- gen_chp m b C L ;;
            ret (dset (fst acc) (fst kv) b, dset (snd acc) (fst kv) c))%m) base acc w = (Ok (b, c), w') ->
  (forall cond v0, dget base cond = Some v0 -> exists x y, dget b cond = Some x /\ dget c cond = Some y /\ chip_of e C L cond v0 x y) /\
  (forall cond, dget base cond = None -> dget b cond = dget (fst acc) cond /\ dget c cond = dget (snd acc) cond).
Proof.
  induction base as [|[k v] base IH]; intros acc w b c w' N E; cbn [foldM] in E.
  - apply ret_ok in E as [E ->]. subst acc. split; [discriminate|auto].
  - apply bind_ok in E as (acc1 & w1 & E1 & E). change (dkeys ((k, v) :: base)) with (k :: dkeys base) in N. inversion N as [|? ? Nk N']; subst.
    apply IH in E as [G1 G2]; auto. cbn [fst snd] in E1. apply bind_lift_ok in E1 as (m & Em & E1).
    apply bind_ok in E1 as (b1 & w2 & Eb & E1). apply bind_ok in E1 as (c1 & w3 & Ec & E1). apply ret_ok in E1 as [-> ->].
    cbn [fst snd] in G2. split.
    + intros cond v0 Hc. cbn [dget] in Hc. destruct (String.eqb_spec cond k) as [->|Nc]; [|eauto].
      injection Hc as <-. destruct (G2 k) as [-> ->]; [now apply dget_None_keys|]. exists b1, c1. rewrite !dget_dset_eq. split; auto. split; auto.
      apply gen_batch_ok in Eb as (t & xb & T & Rb & ->). apply gen_chp_ok in Ec as (t' & chps & T' & Rc & -> & Lc).
      assert (t' = t) as -> by congruence. exists m, t, xb, chps, w, w2, w3. auto 10.
    + intros cond Hc. cbn [dget] in Hc. destruct (String.eqb cond k) eqn:Nc; [discriminate|]. apply String.eqb_neq in Nc.
      destruct (G2 cond Hc) as [-> ->]. rewrite !dget_dset_neq by auto. auto.
Qed.

(** ** Device parameters *)
Lemma prm_conds_ok e chip counts prm l : forall acc w v w',
  foldM (fun acc cond =>
           (m <- lift (vrtn_mdl e cond) ;;
            c <- lift (dgetE chip cond) ;;
            n <- lift (dgetE counts prm) ;;
            a <- gen_dev m c n ;;
            ret (dset acc cond (PArr a)))%m) l acc w = (Ok v, w') ->
  (forall cond, In cond l -> exists m c n a wa wb, vrtn_mdl e cond = Ok m /\ dget chip cond = Some c /\ dget counts prm = Some n /\
     gen_dev m c n wa = (Ok a, wb) /\ dget v cond = Some (PArr a)) /\
  (forall cond, ~ In cond l -> dget v cond = dget acc cond).
Proof.
  induction l as [|k l IH]; intros acc w v w' E; cbn [foldM] in E.
  - apply ret_ok in E as [-> ->]. split; [intros ? []|auto].
  - apply bind_ok in E as (acc1 & w1 & E1 & E). apply IH in E as [G1 G2].
    apply bind_lift_ok in E1 as (m & Em & E1). apply bind_lift_ok in E1 as (c & Ec & E1). apply bind_lift_ok in E1 as (n & En & E1).
    apply bind_ok in E1 as (a & w2 & Ea & E1). apply ret_ok in E1 as [-> ->]. apply dgetE_ok in Ec, En. split.
    + intros cond Hin. destruct (in_dec String.string_dec cond l) as [I|I]; [auto|].
      destruct Hin as [<-|Hin]; [|contradiction]. exists m, c, n, a, w, w2. rewrite (G2 _ I), dget_dset_eq. auto 8.
    + intros cond Hn. cbn [In] in Hn. rewrite G2 by tauto. apply dget_dset_neq. tauto.
Qed.

Lemma depends_In (q : prm V) l stress c : In c (dependencies q l stress) <-> In c l /\ depends q stress c.
Proof.
  destruct q as [p|c']; unfold dependencies, depends.
  - unfold deg_dependencies. rewrite (proj2 (hord_ok _)). rewrite in_app_iff, filter_In, smem_In.
    destruct stress.
    + rewrite in_flat_map. split.
      * intros [[A B]|([nm m] & I & A)]; [auto|]. cbn [snd] in A. apply filter_In in A as [A B]. apply smem_In in B. split; auto. right. left. eauto.
      * intros [A [B|[(_ & nm & m & I & B)|[B _]]]]; [auto| |discriminate]. right. exists (nm, m). split; auto. cbn [snd]. apply filter_In. split; auto. now apply smem_In.
    + rewrite filter_In, smem_In. split; [intros [[A B]|[A B]]; auto 6|]. intros [A [B|[[B _]|[_ B]]]]; [auto|discriminate|auto].
  - rewrite filter_In, smem_In. tauto.
Qed.

(** ** C16 *)
Lemma env_conds_ok e base prms info dev stress nc nl w res w' : dwf base ->
  gen_env_cond_vals e base prms info dev stress nc nl w = (Ok res, w') ->
  let C := match info with Some i => ti_chps i | None => nc end in
  let L := match info with Some i => ti_lots i | None => nl end in
  (forall x, dmem res x = true <-> In x (request prms)) /\
  (forall cond v0, dget base cond = Some v0 -> exists b c, chip_of e C L cond v0 b c /\
     (forall x v, dget res x = Some v ->
        match dev_prm dev x with
        | Some q => forall p, dget v cond = Some p -> exists m n a wa wb, p = PArr a /\ vrtn_mdl e cond = Ok m /\
            request_count prms info x = Some n /\ gen_dev m c n wa = (Ok a, wb)
        | None => x = cond -> exists m n s a wa wb wc, v = [(x, PArr a)] /\ vrtn_mdl e cond = Ok m /\
            request_count prms info x = Some n /\ gen_chp m b n 1 wa = (Ok s, wb) /\ gen_dev m s 1 wb = (Ok a, wc)
        end)) /\
  (forall x v, dget res x = Some v ->
     match dev_prm dev x with
     | Some q => forall cond, dmem v cond = true <-> In cond (dkeys base) /\ depends q stress cond
     | None => In x (dkeys base) /\ dkeys v = [x]
     end).
Proof.
  intros W E C L. unfold gen_env_cond_vals in E. fold C L in E.
  apply bind_ok in E as ([bs cs] & w1 & E1 & E). apply bind_ok in E as ([names cnt] & w2 & E2 & E). cbn [fst snd] in E.
  assert (R : names = request prms /\ forall x, dget cnt x = request_count prms info x).
  { destruct prms as [l|d]; cbn [request request_count].
    - destruct info as [i|]; [|discriminate E2]. apply ret_ok in E2 as [E2 _]. injection E2 as -> ->. auto.
    - apply ret_ok in E2 as [E2 _]. injection E2 as -> ->. auto. }
  destruct R as [-> R]. clear E2. unfold gen_chip_conds in E1. apply chip_conds_ok in E1 as [B1 B2]; auto. cbn [fst snd dget] in B2.
  assert (G : forall l acc w res w',
    foldM (fun acc prm =>
            (v <- (match (match dev with Some d => dget d prm | None => None end) with
                   | Some q => gen_prm_conds e cs cnt prm (dependencies q (dkeys base) stress)
                   | None => gen_sensor_conds e bs cnt prm
                   end) ;;
             ret (dset acc prm v))%m) l acc w = (Ok res, w') ->
    (forall x, In x l -> exists v wa wb, dget res x = Some v /\
       match dev_prm dev x with
       | Some q => gen_prm_conds e cs cnt x (dependencies q (dkeys base) stress) wa = (Ok v, wb)
       | None => gen_sensor_conds e bs cnt x wa = (Ok v, wb)
       end) /\ (forall x, ~ In x l -> dget res x = dget acc x)).
  { clear E res w'. induction l as [|k l IH]; intros acc w3 res w' E; cbn [foldM] in E.
    - apply ret_ok in E as [-> ->]. split; [intros ? []|auto].
    - apply bind_ok in E as (acc1 & w4 & E2 & E). apply IH in E as [G1 G2]. apply bind_ok in E2 as (v & w5 & E2 & E3). apply ret_ok in E3 as [-> ->]. split.
      + intros x Hin. destruct (in_dec String.string_dec x l) as [I|I]; [auto|]. destruct Hin as [<-|Hin]; [|contradiction].
        exists v, w3, w5. rewrite (G2 _ I), dget_dset_eq. split; auto. unfold dev_prm. destruct (match dev with Some d => dget d k | None => None end); auto.
      + intros x Hn. cbn [In] in Hn. rewrite G2 by tauto. apply dget_dset_neq. tauto. }
  apply G in E as [G1 G2]. clear G. cbn [dget] in G2.
  assert (S : forall x v, dget res x = Some v -> exists wa wb,
       match dev_prm dev x with
       | Some q => gen_prm_conds e cs cnt x (dependencies q (dkeys base) stress) wa = (Ok v, wb)
       | None => gen_sensor_conds e bs cnt x wa = (Ok v, wb)
       end).
  { intros x v Hv. destruct (in_dec String.string_dec x (request prms)) as [I|I].
    - destruct (G1 x I) as (v' & wa & wb & Hv' & X). rewrite Hv in Hv'. injection Hv' as <-. eauto.
    - rewrite (G2 x I) in Hv. discriminate. }
  split; [|split].
  - intros x. destruct (in_dec String.string_dec x (request prms)) as [I|I].
    + destruct (G1 x I) as (v' & wa & wb & Hv' & X). unfold dmem. rewrite Hv'. tauto.
    + unfold dmem. rewrite (G2 x I). split; [discriminate|tauto].
  - intros cond v0 Hc. destruct (B1 _ _ Hc) as (b & c & Hb & Hcc & K). exists b, c. split; auto.
    intros x v Hv. destruct (S x v Hv) as (wa & wb & X). destruct (dev_prm dev x) as [q|].
    + intros p Hp. unfold gen_prm_conds in X. apply prm_conds_ok in X as [X1 X2].
      destruct (in_dec String.string_dec cond (dependencies q (dkeys base) stress)) as [I|I].
      * destruct (X1 _ I) as (m & c' & n & a & w3 & w4 & Y1 & Y2 & Y3 & Y4 & Y5).
        exists m, n, a, w3, w4. rewrite Hp in Y5. injection Y5 as ->. rewrite <- R. assert (c' = c) as -> by congruence. auto.
      * rewrite (X2 _ I) in Hp. discriminate.
    + intros ->. unfold gen_sensor_conds in X. apply bind_lift_ok in X as (m & Em & X). apply bind_lift_ok in X as (b' & Eb & X).
      apply bind_lift_ok in X as (n & En & X). apply dgetE_ok in Eb, En. apply bind_ok in X as (s & w3 & Es & X). apply bind_ok in X as (a & w4 & Ea & X).
      apply ret_ok in X as [-> ->]. assert (b' = b) as -> by congruence. exists m, n, s, a, wa, w3, w4. rewrite <- R. auto 8.
  - intros x v Hv. destruct (S x v Hv) as (wa & wb & X). destruct (dev_prm dev x) as [q|].
    + intros cond. rewrite <- depends_In. unfold gen_prm_conds in X. apply prm_conds_ok in X as [X1 X2].
      destruct (in_dec String.string_dec cond (dependencies q (dkeys base) stress)) as [I|I].
      * destruct (X1 _ I) as (m & c' & n & a & w3 & w4 & Y1 & Y2 & Y3 & Y4 & Y5). unfold dmem. rewrite Y5. tauto.
      * unfold dmem. rewrite (X2 _ I). split; [discriminate|tauto].
    + unfold gen_sensor_conds in X. apply bind_lift_ok in X as (m & Em & X). apply bind_lift_ok in X as (b' & Eb & X).
      apply bind_lift_ok in X as (n & En & X). apply dgetE_ok in Eb, En. apply bind_ok in X as (s & w3 & Es & X). apply bind_ok in X as (a & w4 & Ea & X).
      apply ret_ok in X as [-> ->]. split; auto.
      destruct (dget base x) as [v0|] eqn:Ev; [|destruct (B2 x Ev) as [B3 _]; congruence].
      apply dmem_keys. unfold dmem. now rewrite Ev.
Qed.
End L.
