(** The device draws of different parameters follow each other. *)
From Coq Require Import QArith Lia.
From Verif Require Import M_Base M_Num M_Nd M_RandVar M_Latent M_Device M_Report M_Env
  S_Latent S_Env L_Base L_Latent L_Device L_Env L_Env2.
Open Scope nat_scope.

Section L.
Context {V : Type} `{NumOps V} `{Rng V} `{HashOrd}.
Implicit Types (e : env V).

Lemma reached_trans w1 w2 w3 : reached (V := V) w1 w2 -> reached w2 w3 -> reached w1 w3.
Proof. intros R1 R2. induction R1; auto. eapply reached_step; eauto. Qed.
Lemma sample_reached r n w (xs : list V) w' : sample r n w = (Ok xs, w') -> reached w w'.
Proof. intros E. apply sample_reads in E. eapply reached_step; eauto. apply reached_refl. Qed.
Lemma gen_batch_reached (m : emdl V) v w b w' : gen_batch m v w = (Ok b, w') -> reached w w'.
Proof. intros E. apply bind_ok in E as (xs & w1 & E1 & E). apply lift_ok in E as [_ ->]. eapply sample_reached; eauto. Qed.
Lemma gen_chp_reached (m : emdl V) b C L w c w' : gen_chp m b C L w = (Ok c, w') -> reached w w'.
Proof.
  intros E. apply bind_lift_ok in E as (f & _ & E). apply bind_lift_ok in E as (x & _ & E). apply bind_ok in E as (xs & w1 & E1 & E).
  apply lift_ok in E as [_ ->]. eapply sample_reached; eauto.
Qed.
Lemma gen_dev_reached (m : emdl V) b D w c w' : gen_dev m b D w = (Ok c, w') -> reached w w'.
Proof.
  intros E. apply bind_lift_ok in E as (f & _ & E). apply bind_ok in E as (xs & w1 & E1 & E).
  apply sample_reached in E1. destruct (nshape b) as [|? [|? ?]]; try discriminate. apply lift_ok in E as [_ ->]. auto.
Qed.

Lemma prm_conds_worlds e chip counts prm l : forall acc w v w',
  foldM (fun acc cond =>
           (m <- lift (vrtn_mdl e cond) ;;
            c <- lift (dgetE chip cond) ;;
            n <- lift (dgetE counts prm) ;;
            a <- gen_dev m c n ;;
            ret (dset acc cond (PArr a)))%m) l acc w = (Ok v, w') ->
  reached w w' /\
  forall cond, In cond l -> exists m c n a wa wb, vrtn_mdl e cond = Ok m /\ dget chip cond = Some c /\ dget counts prm = Some n /\
     gen_dev m c n wa = (Ok a, wb) /\ dget v cond = Some (PArr a) /\ reached w wa /\ reached wb w'.
Proof.
  induction l as [|k l IH]; intros acc w v w' E.
  - apply ret_ok in E as [-> ->]. split; [constructor|intros ? []].
  - pose proof E as E0. cbn [foldM] in E. apply bind_ok in E as (acc1 & w1 & E1 & E). pose proof E as E'. apply IH in E as [R1 G1]. 
    apply prm_conds_ok in E' as [_ G2].
    apply bind_lift_ok in E1 as (m & Em & E1). apply bind_lift_ok in E1 as (c & Ec & E1). apply bind_lift_ok in E1 as (n & En & E1).
    apply bind_ok in E1 as (a & w2 & Ea & E1). apply ret_ok in E1 as [-> ->]. apply dgetE_ok in Ec, En. pose proof (gen_dev_reached _ _ _ _ _ _ Ea) as Rd.
    split; [eapply reached_trans; eauto|]. intros cond Hin.
    destruct (in_dec String.string_dec cond l) as [I|I].
    + destruct (G1 cond I) as (m' & c' & n' & a' & wa & wb & A1 & A2 & A3 & A4 & A5 & A6 & A7).
      exists m', c', n', a', wa, wb. repeat split; auto. eapply reached_trans; eauto.
    + destruct Hin as [<-|Hin]; [|contradiction]. exists m, c, n, a, w, w2. rewrite (G2 _ I), dget_dset_eq. repeat split; auto. constructor.
Qed.

Lemma sensor_reached e bs cnt x w v w' : gen_sensor_conds e bs cnt x w = (Ok v, w') -> reached w w'.
Proof.
  intros E. unfold gen_sensor_conds in E. apply bind_lift_ok in E as (m & _ & E). apply bind_lift_ok in E as (b & _ & E). apply bind_lift_ok in E as (n & _ & E).
  apply bind_ok in E as (s & w1 & E1 & E). apply bind_ok in E as (a & w2 & E2 & E). apply ret_ok in E as [-> ->].
  eapply reached_trans; [eapply gen_chp_reached|eapply gen_dev_reached]; eauto.
Qed.

(** The arrays of one condition for two parameters: the later parameter's draws are
    made after those of the earlier one. *)
Lemma env_conds_fresh e base prms info dev stress nc nl w res w' l1 x l2 y l3 cond ax ay qx qy vx vy :
  request prms = l1 ++ x :: l2 ++ y :: l3 -> NoDup (request prms) ->
  gen_env_cond_vals e base prms info dev stress nc nl w = (Ok res, w') ->
  dev_prm dev x = Some qx -> dev_prm dev y = Some qy ->
  dget res x = Some vx -> dget vx cond = Some (PArr ax) -> dget res y = Some vy -> dget vy cond = Some (PArr ay) ->
  exists m c nx ny w1 w2 w3 w4, vrtn_mdl e cond = Ok m /\
    gen_dev m c nx w1 = (Ok ax, w2) /\ reached w2 w3 /\ gen_dev m c ny w3 = (Ok ay, w4).
Proof.
  intros Rq Nd E Dx Dy Gx Gcx Gy Gcy. unfold gen_env_cond_vals in E.
  set (C := match info with Some i => ti_chps i | None => nc end) in E. set (L := match info with Some i => ti_lots i | None => nl end) in E.
  apply bind_ok in E as ([bs cs] & w1 & E1 & E). apply bind_ok in E as ([names cnt] & w2 & E2 & E). cbn [fst snd] in E.
  assert (names = request prms) as ->.
  { destruct prms as [l|d]; cbn [request].
    - destruct info as [i|]; [|discriminate E2]. apply ret_ok in E2 as [E2 _]. injection E2 as -> ->. auto.
    - apply ret_ok in E2 as [E2 _]. injection E2 as -> ->. auto. }
  set (f := fun acc prm => (v <- (match (match dev with Some d => dget d prm | None => None end) with
                   | Some q => gen_prm_conds e cs cnt prm (dependencies q (dkeys base) stress)
                   | None => gen_sensor_conds e bs cnt prm
                   end) ;; ret (dset acc prm v))%m) in E.
  assert (K : forall l acc w res w', foldM f l acc w = (Ok res, w') -> reached w w' /\ forall k, ~ In k l -> dget res k = dget acc k).
  { clear. induction l as [|k l IH]; intros acc w res w' E; cbn [foldM] in E.
    - apply ret_ok in E as [-> ->]. split; [constructor|auto].
    - apply bind_ok in E as (acc1 & w1 & E1 & E). apply IH in E as [R1 G1]. unfold f in E1. apply bind_ok in E1 as (v & w2 & E1 & E2). apply ret_ok in E2 as [-> ->].
      split.
      + eapply reached_trans; [|eauto]. destruct (match dev with Some d => dget d k | None => None end) as [q|].
        * unfold gen_prm_conds in E1. apply prm_conds_worlds in E1 as [R2 _]. auto.
        * eapply sensor_reached; eauto.
      + intros x Hx. cbn [In] in Hx. rewrite G1 by tauto. apply dget_dset_neq. tauto. }
  rewrite Rq in E, Nd. rewrite foldM_app in E. apply bind_ok in E as (s1 & w3 & E3 & E). cbn [foldM] in E. apply bind_ok in E as (s2 & w4 & E4 & E).
  rewrite foldM_app in E. apply bind_ok in E as (s3 & w5 & E5 & E). cbn [foldM] in E. apply bind_ok in E as (s4 & w6 & E6 & E).
  apply K in E as [_ K1]. apply K in E5 as [R5 K2]. unfold dev_prm in Dx, Dy. unfold f in E4, E6. rewrite Dx in E4. rewrite Dy in E6.
  apply bind_ok in E4 as (v4 & w7 & E4 & E7). apply ret_ok in E7 as [-> ->]. apply bind_ok in E6 as (v6 & w8 & E6 & E8). apply ret_ok in E8 as [-> ->].
  apply NoDup_remove in Nd as [Nd Nx]. rewrite in_app_iff in Nx. cbn [In] in Nx. rewrite in_app_iff in Nx. cbn [In] in Nx.
  rewrite app_assoc in Nd. apply NoDup_remove in Nd as [Nd Ny]. rewrite !in_app_iff in Ny.
  assert (vx = v4) as ->.
  { rewrite K1, dget_dset_neq, K2, dget_dset_eq in Gx by (try tauto; intros ->; tauto). congruence. }
  assert (vy = v6) as -> by (rewrite K1, dget_dset_eq in Gy by tauto; congruence).
  unfold gen_prm_conds in E4, E6. pose proof E4 as E4'. pose proof E6 as E6'. apply prm_conds_ok in E4' as [_ N4]. apply prm_conds_ok in E6' as [_ N6].
  apply prm_conds_worlds in E4 as [_ X4]. apply prm_conds_worlds in E6 as [_ X6].
  destruct (in_dec String.string_dec cond (dependencies qx (dkeys base) stress)) as [I4|I4]; [|rewrite N4 in Gcx by auto; discriminate].
  destruct (in_dec String.string_dec cond (dependencies qy (dkeys base) stress)) as [I6|I6]; [|rewrite N6 in Gcy by auto; discriminate].
  destruct (X4 _ I4) as (m & c & n & a & wa & wb & A1 & A2 & A3 & A4 & A5 & A6 & A7).
  destruct (X6 _ I6) as (m' & c' & n' & a' & wa' & wb' & B1 & B2 & B3 & B4 & B5 & B6 & B7).
  assert (m' = m) as -> by congruence. assert (c' = c) as -> by congruence. assert (a = ax) as -> by congruence. assert (a' = ay) as -> by congruence.
  exists m, c, n, n', wa, wb, wa', wb'. repeat split; auto. eapply reached_trans; [exact A7|]. eapply reached_trans; eauto.
Qed.

(** ** The arrays element by element *)
Lemma env_conds_elements e base prms info dev stress nc nl w res w' : dwf base ->
  gen_env_cond_vals e base prms info dev stress nc nl w = (Ok res, w') ->
  let C := match info with Some i => ti_chps i | None => nc end in
  let L := match info with Some i => ti_lots i | None => nl end in
  forall cond v0, dget base cond = Some v0 -> exists m t xb chps wb wc wd,
    vrtn_mdl e cond = Ok m /\ em_op m = Some t /\ reads (em_bat m) 1 wb [xb] wc /\ reads (em_chp m) (C * L) wc chps wd /\
    forall x v, dget res x = Some v ->
      match dev_prm dev x with
      | Some _ => forall p, dget v cond = Some p -> exists n a devs w1 w2,
          p = PArr a /\ request_count prms info x = Some n /\ nshape a = [L; C; n] /\ length (ndata a) = L * C * n /\
          reads (em_dev m) (n * (L * C)) w1 devs w2 /\
          forall l c k, l < L -> c < C -> k < n -> exists xc xd,
            nth_error chps (l * C + c) = Some xc /\ nth_error devs ((l * C + c) * n + k) = Some xd /\
            nth_error (ndata a) ((l * C + c) * n + k) = Some (combine t (combine t (combine t v0 xb) xc) xd)
      | None => x = cond -> exists n a sens devs w1 w2 w3,
          v = [(cond, PArr a)] /\ request_count prms info x = Some n /\ nshape a = [1; n; 1] /\ length (ndata a) = n /\
          reads (em_chp m) n w1 sens w2 /\ reads (em_dev m) n w2 devs w3 /\
          forall k, k < n -> exists xc xd, nth_error sens k = Some xc /\ nth_error devs k = Some xd /\
            nth_error (ndata a) k = Some (combine t (combine t (combine t v0 xb) xc) xd)
      end.
Proof.
  intros W E C L cond v0 Hc. apply env_conds_ok in E as (_ & E & _); auto. fold C L in E.
  destruct (E cond v0 Hc) as (b & c & (m & t & xb & chps & wb & wc & wd & Em & Et & Rb & Rc & -> & -> & Lc) & K).
  exists m, t, xb, chps, wb, wc, wd. do 4 (split; auto). intros x v Hv. specialize (K x v Hv). destruct (dev_prm dev x) as [q|].
  - intros p Hp. destruct (K p Hp) as (m' & n & a & w1 & w2 & -> & Em' & En & Eg). assert (m' = m) as -> by congruence.
    apply gen_dev_ok in Eg as (t' & devs & Et' & Rd & Sa & La & El); [|now rewrite map_length]. assert (t' = t) as -> by congruence.
    exists n, a, devs, w1, w2. do 5 (split; auto). intros l k j Hl Hk Hj. destruct (El l k j Hl Hk Hj) as (b & xd & Eb & Ed & Ea).
    rewrite nth_error_map in Eb. destruct (nth_error chps (l * C + k)) as [xc|]; [|discriminate]. cbn in Eb. injection Eb as <-. eauto.
  - intros ->. destruct (K eq_refl) as (m' & n & s & a & w1 & w2 & w3 & -> & Em' & En & Es & Eg). assert (m' = m) as -> by congruence.
    apply gen_chp_ok in Es as (t' & sens & Et' & Rs & -> & Ls). assert (t' = t) as -> by congruence.
    apply gen_dev_ok in Eg as (t' & devs & Et'' & Rd & Sa & La & El); [|now rewrite map_length]. assert (t' = t) as -> by congruence.
    rewrite Nat.mul_1_r in Rs. rewrite !Nat.mul_1_l in *. rewrite Nat.mul_1_r in La. 
    exists n, a, sens, devs, w1, w2, w3. do 6 (split; auto). intros k Hk. destruct (El 0 k 0 ltac:(lia) Hk ltac:(lia)) as (b & xd & Eb & Ed & Ea).
    replace (0 * n + k) with k in * by lia. replace (k * 1 + 0) with k in * by lia. 
    rewrite nth_error_map in Eb. destruct (nth_error sens k) as [xc|]; [|discriminate]. cbn in Eb. injection Eb as <-. eauto.
Qed.
End L.
