(** Lemmas about the default parameter equation. *)
From Coq Require Import QArith Lia.
From Verif Require Import M_Base M_Num M_Nd M_RandVar M_Latent M_Time M_Minimize M_Device S_Device S_Sum L_Base L_Nd L_Device L_Device2 L_Device3.
Open Scope nat_scope.

Section L.
Context {V : Type} `{NumOps V}.

Lemma psum_arrs s (arrs : list (nd V)) : s <> [] -> Forall (fun a => nshape a = s) arrs -> forall acc, nshape acc = s -> awf acc ->
  psum (PArr acc) (map PArr arrs) = Ok (PArr (nbuild s (fun idx => fold_left nadd (map (fun a => aget a idx) arrs) (aget acc idx)))).
Proof.
  intros Ns F. induction F as [|a r Ha Hr IH]; intros acc Sa Wa; cbn [map psum fold_left].
  - now rewrite <- Sa, nbuild_aget.
  - unfold pmap2. cbn [to_nd rbind]. rewrite bmap2_same by congruence. cbn [rbind]. rewrite of_nd_arr by (rewrite nshape_nbuild; congruence).
    rewrite IH; [|rewrite nshape_nbuild; congruence|apply awf_nbuild]. do 2 f_equal. apply nbuild_ext. intros idx Hv.
    rewrite aget_nbuild by congruence. reflexivity.
Qed.
Lemma psum_zero_arrs s (arrs : list (nd V)) : s <> [] -> Forall (fun a => nshape a = s) arrs ->
  exists p, psum (PNum n0) (map PArr arrs) = Ok p /\
    (arrs = [] /\ p = PNum n0 \/ p = PArr (nbuild s (fun idx => sum_at arrs idx))).
Proof.
  intros Ns F. destruct F as [|a r Ha Hr]; [eexists; split; [reflexivity|now left]|].
  cbn [map psum]. unfold pmap2. cbn [to_nd rbind]. rewrite bmap2_scalar_l. cbn [rbind]. rewrite of_nd_arr by (rewrite nshape_nbuild; congruence).
  rewrite (psum_arrs s); [|auto|auto|now rewrite nshape_nbuild|apply awf_nbuild]. eexists. split; [reflexivity|]. right.
  f_equal. apply nbuild_ext. intros idx Hv. rewrite aget_nbuild by congruence. reflexivity.
Qed.
Lemma sum_plus s a c (arrs : list (nd V)) : s <> [] -> nshape a = s -> awf a -> Forall (fun a => nshape a = s) arrs ->
  exists b, rbind (pmap2 nadd (PArr a) (PNum c)) (fun ic => rbind (psum (PNum n0) (map PArr arrs)) (fun x => pmap2 nadd ic x)) = Ok (PArr b) /\
    nshape b = s /\ awf b /\ forall idx, valid s idx -> aget b idx = nadd (nadd (aget a idx) c) (sum_at arrs idx).
Proof.
  intros Ns Sa Wa F. unfold pmap2 at 1. cbn [to_nd rbind]. rewrite bmap2_scalar_r. cbn [rbind]. rewrite of_nd_arr by (rewrite nshape_nbuild; congruence).
  cbn [rbind]. destruct (psum_zero_arrs s arrs Ns F) as (p & -> & [[-> ->]| ->]); cbn [rbind]; unfold pmap2; cbn [to_nd rbind].
  - rewrite bmap2_scalar_r. cbn [rbind]. rewrite of_nd_arr by (rewrite !nshape_nbuild; congruence). eexists. split; [reflexivity|].
    rewrite !nshape_nbuild. split; [auto|]. split; [apply awf_nbuild|]. intros idx Hv. rewrite Sa, !aget_nbuild by congruence. reflexivity.
  - rewrite bmap2_same by (rewrite !nshape_nbuild; auto). cbn [rbind]. rewrite of_nd_arr by (rewrite !nshape_nbuild; congruence). eexists. split; [reflexivity|].
    rewrite !nshape_nbuild. split; [auto|]. split; [apply awf_nbuild|]. intros idx Hv. rewrite Sa, !aget_nbuild by congruence. reflexivity.
Qed.

(** The loop over the mechanisms. *)
Definition adv_step (times conds lats mvals : dict (pyval V)) (L C D : nat) (acc : dict (pyval V) * dict (pyval V)) (nm : string * mech V) :
  M (dict (pyval V) * dict (pyval V)) :=
  (t <- lift (dgetE times (fst nm)) ;;
   v <- lift (dgetE mvals (fst nm)) ;;
   l <- lift (rbind (dgetE lats (fst nm)) as_dict) ;;
   x <- mech_deg_vals (snd nm) t v conds l L C D ;;
   ret (dset (fst acc) (fst nm) x, dset (snd acc) (fst nm) x))%m.
Lemma adv_fold times conds lats mvals L C D ms : NoDup (dkeys ms) -> forall acc w st w',
  (forall k, In k (dkeys ms) -> ~ In k (dkeys (fst acc)) /\ ~ In k (dkeys (snd acc))) ->
  foldM (adv_step times conds lats mvals L C D) ms acc w = (Ok st, w') ->
  exists mv, advanced times conds lats mvals L C D ms w mv w' /\ st = (fst acc ++ mv, snd acc ++ mv) /\ dkeys mv = dkeys ms.
Proof.
  intros ND. induction ms as [|[nm m] r IH]; intros acc w st w' F E; cbn [foldM] in E.
  - injection E as <- <-. exists []. split; [constructor|]. rewrite !app_nil_r. now destruct acc.
  - apply bind_ok in E as (a1 & w1 & E1 & E). unfold adv_step in E1. cbn [fst snd] in E1.
    apply bind_lift_ok in E1 as (t & T & E1). apply bind_lift_ok in E1 as (v & Ev & E1). apply bind_lift_ok in E1 as (l & El & E1).
    apply bind_ok in E1 as (x & w2 & Ex & E1). injection E1 as <- <-.
    cbn [dkeys map fst] in ND. inversion ND as [|? ? N1 N2]; subst.
    destruct (F nm ltac:(now left)) as [F1 F2]. rewrite !dset_app_new in E by auto. fold (dkeys r) in *.
    apply IH in E as (mv & A & -> & K); auto.
    + exists ((nm, x) :: mv). cbn [fst snd]. rewrite <- !app_assoc. cbn [app]. split; [|split; [auto|cbn [dkeys map fst]; f_equal; exact K]].
      apply rbind_ok in El as (q & Eq & El). destruct q; try discriminate. injection El as <-.
      econstructor; eauto; now apply dgetE_ok.
    + intros k Hk. destruct (F k ltac:(now right)) as [G1 G2]. cbn [fst snd]. unfold dkeys. rewrite !map_app, !in_app_iff. cbn [map fst In].
      split; intros [Q|[Q|[]]]; subst; [now apply G1|auto|now apply G2|auto].
Qed.

Lemma filter_plain (mv : dict (pyval V)) : ~ In "init"%string (dkeys mv) -> ~ In "cond"%string (dkeys mv) ->
  filter (fun kv : string * pyval V => negb (String.eqb (fst kv) "init" || String.eqb (fst kv) "cond")) mv = mv.
Proof.
  induction mv as [|[k v] r IH]; intros A B; auto. cbn [filter fst]. cbn [dkeys map fst] in A, B.
  destruct (String.eqb_spec k "init"); [subst; exfalso; apply A; now left|]. destruct (String.eqb_spec k "cond"); [subst; exfalso; apply B; now left|].
  cbn [orb negb]. f_equal. apply IH; intros Q; [apply A|apply B]; now right.
Qed.

(** Everything summed besides the initial value and the shift. *)
Definition extra (lats : dict (pyval V)) (ms : dict (mech V)) : dict (pyval V) :=
  if smem "mechs" (dkeys ms) then [] else match dget lats "mechs" with Some v => [("mechs"%string, v)] | None => [] end.

Lemma sum_call (p : degprm V) times conds init lats mvals L C D w x mv w' :
  lm_eqn (dp_own p) = eqn_basic_sum -> plain_names (dp_mechs p) ->
  prm_deg_vals p times conds init lats mvals L C D w = (Ok (x, mv), w') ->
  exists w1, advanced times conds lats mvals L C D (dp_mechs p) w mv w1 /\ dkeys mv = dkeys (dp_mechs p) /\
    call_or_loop eqn_basic_sum ([("init"%string, init); ("cond"%string, PNum (dp_cunit p))] ++ mv ++ extra lats (dp_mechs p)) L C D w1 = (Ok x, w').
Proof.
  intros Eo (ND & Ni & Nc) E. unfold prm_deg_vals in E. apply bind_ok in E as (st & w1 & E1 & E).
  apply (adv_fold times conds lats mvals L C D) in E1 as (mv' & A & -> & K); auto.
  2:{ intros k Hk. cbn [fst snd dkeys map In]. split; [|tauto]. intros [<-|[<-|[]]]; auto. }
  cbn [fst snd app] in E. apply bind_ok in E as (x' & w2 & E2 & E). injection E as <- <- <-. exists w1. split; [auto|]. split; [auto|].
  rewrite Eo in E2. rewrite <- E2. f_equal.
  unfold compute_args. cbn [eqn_basic_sum e_req e_opt e_kw app add_own]. unfold dmem. cbn [dget String.eqb Ascii.eqb Bool.eqb].
  unfold extra. rewrite <- K. destruct (dget mv' "mechs") as [v|] eqn:Em.
  - assert (I : smem "mechs" (dkeys mv') = true) by (apply smem_In; apply dget_In in Em; apply (in_map fst) in Em; exact Em).
    rewrite I. now rewrite app_nil_r.
  - assert (I : smem "mechs" (dkeys mv') = false) by (apply smem_false; now apply dget_None_keys).
    rewrite I. destruct (dget lats "mechs"); [|now rewrite app_nil_r].
    cbn [app dset String.eqb Ascii.eqb Bool.eqb]. rewrite dset_app_new; auto. now apply dget_None_keys.
Qed.
Lemma basic_sum_call (init : pyval V) c rest w : ~ In "init"%string (dkeys rest) -> ~ In "cond"%string (dkeys rest) ->
  call eqn_basic_sum ([("init"%string, init); ("cond"%string, PNum c)] ++ rest) w =
  (rbind (pmap2 nadd init (PNum c)) (fun ic => rbind (psum (PNum n0) (map snd rest)) (fun x => pmap2 nadd ic x)), w).
Proof.
  intros Ni Nc. unfold call. cbn [eqn_basic_sum e_req e_opt e_kw e_body forallb]. unfold dmem. cbn [app dget String.eqb Ascii.eqb Bool.eqb andb].
  unfold dgetE. cbn [dget String.eqb Ascii.eqb Bool.eqb rbind filter fst orb negb]. now rewrite filter_plain.
Qed.

Lemma deg_value_sum (p : degprm V) times conds a lats mvals L C D w x mv w' :
  lm_eqn (dp_own p) = eqn_basic_sum -> plain_names (dp_mechs p) ->
  prm_deg_vals p times conds (PArr a) lats mvals L C D w = (Ok (x, mv), w') ->
  dkeys mv = dkeys (dp_mechs p) /\
  exists w1, advanced times conds lats mvals L C D (dp_mechs p) w mv w1 /\
  forall arrs, map snd (mv ++ extra lats (dp_mechs p)) = map PArr arrs -> Forall (fun c => nshape c = nshape a) arrs -> nshape a <> [] -> awf a ->
    w' = w1 /\ exists b, x = PArr b /\ nshape b = nshape a /\ awf b /\
      forall idx, valid (nshape a) idx -> aget b idx = nadd (nadd (aget a idx) (dp_cunit p)) (sum_at arrs idx).
Proof.
  intros Eo P E. destruct (sum_call _ _ _ _ _ _ _ _ _ _ _ _ _ Eo P E) as (w1 & A & K & E2). split; [auto|]. exists w1. split; [auto|].
  intros arrs Ea F Ns Wa. destruct P as (ND & Ni & Nc).
  assert (Ki : forall q, q <> "mechs"%string -> ~ In q (dkeys (dp_mechs p)) -> ~ In q (dkeys (mv ++ extra lats (dp_mechs p)))).
  { intros q Nq Iq. unfold dkeys. rewrite map_app. intros Q. apply in_app_or in Q as [Q|Q]; [fold (dkeys mv) in Q; rewrite K in Q; auto|].
    unfold extra in Q. destruct (smem _ _); [destruct Q|]. destruct (dget lats "mechs"); [|destruct Q]. destruct Q as [<-|[]]. auto. }
  destruct (sum_plus (nshape a) a (dp_cunit p) arrs Ns eq_refl Wa F) as (b & Eb & B1 & B2 & B3).
  assert (Ec : call eqn_basic_sum ([("init"%string, PArr a); ("cond"%string, PNum (dp_cunit p))] ++ mv ++ extra lats (dp_mechs p)) w1 = (Ok (PArr b), w1)).
  { rewrite basic_sum_call; [now rewrite Ea, Eb|apply Ki; [discriminate|auto]|apply Ki; [discriminate|auto]]. }
  unfold call_or_loop in E2. rewrite (try_succ _ _ _ _ _ Ec) in E2. injection E2 as <- <-. split; [auto|].
  exists b. auto.
Qed.

(** Other latent values have no influence. *)
Lemma own_latents_ignored (p : degprm V) times conds init lats lats' mvals L C D w :
  lm_eqn (dp_own p) = eqn_basic_sum -> plain_names (dp_mechs p) ->
  (forall k, In k ("mechs"%string :: dkeys (dp_mechs p)) -> dget lats k = dget lats' k) ->
  prm_deg_vals p times conds init lats mvals L C D w = prm_deg_vals p times conds init lats' mvals L C D w.
Proof.
  intros Eo (ND & Ni & Nc) Q. unfold prm_deg_vals.
  assert (Ef : forall ms, incl (dkeys ms) (dkeys (dp_mechs p)) -> forall acc w,
    foldM (adv_step times conds lats mvals L C D) ms acc w = foldM (adv_step times conds lats' mvals L C D) ms acc w).
  { induction ms as [|[nm m] r IH]; intros Inc acc w0; [reflexivity|]. cbn [foldM].
    assert (Es : adv_step times conds lats mvals L C D acc (nm, m) w0 = adv_step times conds lats' mvals L C D acc (nm, m) w0).
    { unfold adv_step. cbn [fst]. replace (dgetE lats nm) with (dgetE lats' nm); [reflexivity|]. unfold dgetE. rewrite (Q nm); [reflexivity|right; apply Inc; now left]. }
    unfold bind. rewrite Es. destruct (adv_step times conds lats' mvals L C D acc (nm, m) w0) as [[s1|e] w1]; auto. apply IH. intros k Hk. apply Inc. now right. }
  fold (adv_step times conds lats mvals L C D). fold (adv_step times conds lats' mvals L C D).
  unfold bind at 1 3. rewrite Ef by apply incl_refl.
  destruct (foldM _ _ _ _) as [[st|e] w1] eqn:E1; auto.
  apply (adv_fold times conds lats' mvals L C D) in E1 as (mv' & A & -> & K); auto.
  2:{ intros k Hk. cbn [fst snd dkeys map In]. split; [|tauto]. intros [<-|[<-|[]]]; auto. }
  cbn [fst snd app]. rewrite Eo.
  assert (Ea : add_own (compute_args (@eqn_basic_sum V _)) lats (("init"%string, init) :: ("cond"%string, PNum (dp_cunit p)) :: mv') =
               add_own (compute_args (@eqn_basic_sum V _)) lats' (("init"%string, init) :: ("cond"%string, PNum (dp_cunit p)) :: mv')).
  { unfold compute_args. cbn [eqn_basic_sum e_req e_opt e_kw app add_own]. unfold dmem. cbn [dget String.eqb Ascii.eqb Bool.eqb].
    rewrite (Q "mechs"%string) by now left. reflexivity. }
  rewrite Ea. reflexivity.
Qed.
End L.
