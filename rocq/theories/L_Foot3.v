(** A degraded parameter with generators of its own can be left out. *)
From Coq Require Import QArith.
From Verif Require Import M_Sim S_Foot L_Base L_Foot L_Foot2.
Open Scope nat_scope.

(** ** Dictionaries *)
Section Without.
Context {A : Type}.
Variable q : string.
Implicit Types d : dict A.

Lemma without_cons k a d : without q ((k, a) :: d) = if String.eqb k q then without q d else (k, a) :: without q d.
Proof. unfold without. cbn [filter fst]. destruct (String.eqb k q); reflexivity. Qed.
Lemma dget_without d k : k <> q -> dget (without q d) k = dget d k.
Proof.
  intros N. induction d as [|[x a] d IH]; [reflexivity|]. rewrite without_cons.
  destruct (String.eqb_spec x q) as [->|Nx]; cbn [dget]; rewrite IH.
  - destruct (String.eqb_spec k q) as [->|_]; [contradiction | reflexivity].
  - reflexivity.
Qed.
Lemma dgetE_without d k : k <> q -> dgetE (without q d) k = dgetE d k.
Proof. intros N. unfold dgetE. rewrite dget_without; auto. Qed.
Lemma dmem_without d k : k <> q -> dmem (without q d) k = dmem d k.
Proof. intros N. unfold dmem. rewrite dget_without; auto. Qed.
Lemma dset_without d k a : k <> q -> without q (dset d k a) = dset (without q d) k a.
Proof.
  intros N. induction d as [|[x b] d IH].
  - cbn [dset]. rewrite without_cons. destruct (String.eqb_spec k q); [contradiction | reflexivity].
  - cbn [dset]. rewrite without_cons. destruct (String.eqb_spec k x) as [->|Nx].
    + rewrite without_cons. destruct (String.eqb_spec x q) as [->|_]; [contradiction|]. cbn [dset].
      rewrite String.eqb_refl. reflexivity.
    + rewrite without_cons. destruct (String.eqb_spec x q); [exact IH|]. rewrite IH. cbn [dset].
      destruct (String.eqb_spec k x); [contradiction | reflexivity].
Qed.
Lemma dset_without_same d a : without q (dset d q a) = without q d.
Proof.
  induction d as [|[x b] d IH].
  - cbn [dset]. rewrite without_cons, String.eqb_refl. reflexivity.
  - cbn [dset]. destruct (String.eqb_spec q x) as [Ex|Nx].
    + rewrite <- Ex, !without_cons, !String.eqb_refl. reflexivity.
    + rewrite !without_cons. rewrite IH. reflexivity.
Qed.
Lemma dkeys_without d : dkeys (without q d) = filter (fun k => negb (String.eqb k q)) (dkeys d).
Proof.
  induction d as [|[x a] d IH]; [reflexivity|]. rewrite without_cons. unfold dkeys in *. cbn [map filter fst].
  destruct (String.eqb x q); cbn [negb map fst]; rewrite IH; reflexivity.
Qed.
Lemma In_without d k a : In (k, a) (without q d) <-> In (k, a) d /\ k <> q.
Proof.
  unfold without. rewrite filter_In. cbn [fst]. destruct (String.eqb_spec k q); cbn; intuition congruence.
Qed.
End Without.

Lemma foldM_skip {A S S'} (keep : A -> bool) (R : S -> world -> S' -> world -> Prop) (f : S -> A -> M S) (f' : S' -> A -> M S') l :
  (forall s a w s1 w1 s' w', In a l -> keep a = false -> f s a w = (Ok s1, w1) -> R s w s' w' -> R s1 w1 s' w') ->
  (forall s a w s1 w1 s' w', In a l -> keep a = true -> f s a w = (Ok s1, w1) -> R s w s' w' ->
     exists s1' w1', f' s' a w' = (Ok s1', w1') /\ R s1 w1 s1' w1') ->
  forall s w s1 w1 s' w', foldM f l s w = (Ok s1, w1) -> R s w s' w' ->
  exists s1' w1', foldM f' (filter keep l) s' w' = (Ok s1', w1') /\ R s1 w1 s1' w1'.
Proof.
  induction l as [|a l IH]; intros Hs Hk s w s1 w1 s' w' E Hr; cbn [foldM filter] in *.
  - unfold ret in E. injection E as <- <-. exists s', w'. split; [reflexivity | exact Hr].
  - apply bind_ok in E as (s2 & w2 & E1 & E).
    specialize (IH (fun s a w s1 w1 s' w' Ha => Hs s a w s1 w1 s' w' (or_intror Ha))
                   (fun s a w s1 w1 s' w' Ha => Hk s a w s1 w1 s' w' (or_intror Ha))).
    destruct (keep a) eqn:Ka.
    + destruct (Hk _ _ _ _ _ _ _ (or_introl eq_refl) Ka E1 Hr) as (s2' & w2' & E2 & Hr2).
      destruct (IH _ _ _ _ _ _ E Hr2) as (s3 & w3 & E3 & Hr3). exists s3, w3. split; [|exact Hr3].
      cbn [foldM]. rewrite (bind_eval _ _ _ _ _ E2). exact E3.
    + exact (IH _ _ _ _ _ _ E (Hs _ _ _ _ _ _ _ (or_introl eq_refl) Ka E1 Hr)).
Qed.

Section Foot3.
Context {V : Type} `{NumOps V} `{Rng V} `{HashOrd}.
Variable G : nat -> Prop.
Variable q : string.
Let nG : nat -> Prop := fun g => ~ G g.
Notation agree := (L_Foot2.agree G).

Lemma kept {A} (m : M A) w a w1 w' : confined G m -> m w = (Ok a, w1) -> agree w w' ->
  exists w1', m w' = (Ok a, w1') /\ agree w1 w1'.
Proof.
  intros [_ R] E Ag. destruct (R w w' Ag) as [R1 R2]. rewrite E in R1, R2.
  destruct (m w') as [r w1']. cbn [fst snd] in R1, R2. subst r. exists w1'. split; [reflexivity|].
  intros g Hg; apply R2, Ag, Hg.
Qed.
Lemma spared {A} (m : M A) w r w1 w' : confined nG m -> m w = (r, w1) -> agree w w' -> agree w1 w'.
Proof.
  intros C E Ag g Hg. pose proof (confined_spares G m w g C Hg) as K. rewrite E in K. cbn [snd] in K.
  rewrite K. apply Ag, Hg.
Qed.

Variables (e : env V) (d : device V) (p : degprm V).
Hypothesis Hq : forall x, In (q, x) d -> x = PDeg p.
Hypothesis Hcirc : forall n c, In (n, PCirc c) d -> ~ In q (compute_args (lm_eqn c)).
Let d' : device V := without q d.

Lemma dget_q x : dget d q = Some x -> x = PDeg p.
Proof. intros E. apply Hq, dget_In, E. Qed.

(** ** Sample counts *)
Definition pair_without (acc : dict nat * option (dict nat)) : dict nat * option (dict nat) :=
  (without q (fst acc), option_map (without q) (snd acc)).

Lemma raise_counts_without (c : lmdl V) prm acc : ~ In q (compute_args (lm_eqn c)) -> prm <> q ->
  raise_counts c (dkeys d') prm (pair_without acc) = pair_without (raise_counts c (dkeys d) prm acc).
Proof.
  intros Nq Np. unfold raise_counts.
  assert (E : required_prms c (dkeys d') = required_prms c (dkeys d)).
  { unfold required_prms, d'. rewrite dkeys_without. induction (dkeys d) as [|k l IH]; [reflexivity|]. cbn [filter].
    destruct (String.eqb_spec k q) as [->|N]; cbn [negb filter]; rewrite IH.
    - destruct (smem q (compute_args (lm_eqn c))) eqn:E; [|reflexivity]. apply smem_In in E; contradiction.
    - reflexivity. }
  rewrite E. clear E.
  assert (Hr : forall x, In x (required_prms c (dkeys d)) -> x <> q).
  { intros x Hx ->. unfold required_prms in Hx. apply filter_In in Hx as [_ Hx]. apply smem_In in Hx. contradiction. }
  revert acc Hr. induction (required_prms c (dkeys d)) as [|x l IH]; intros acc Hr; cbn [fold_left]; [reflexivity|].
  rewrite <- IH by (intros y Hy; apply Hr; right; exact Hy). f_equal.
  assert (Nx : x <> q) by (apply Hr; left; reflexivity).
  unfold pair_without. cbn [fst snd]. rewrite !dget_without by assumption.
  destruct (dget (fst acc) prm) as [n|]; [|reflexivity].
  destruct (match dget (fst acc) x with None => true | Some m => m <? n end); [|reflexivity].
  cbn [fst snd]. rewrite dset_without by assumption. f_equal. destruct (snd acc); cbn [option_map]; [|reflexivity].
  rewrite dset_without by assumption. reflexivity.
Qed.

Lemma augment_without l acc :
  augment d' (pair_without acc) (filter (fun k => negb (String.eqb k q)) l) = pair_without (augment d acc l).
Proof.
  unfold augment. revert acc. induction l as [|k l IH]; intros acc; cbn [filter fold_left]; [reflexivity|].
  destruct (String.eqb_spec k q) as [->|N]; cbn [negb].
  - rewrite IH. f_equal. f_equal. destruct (dget d q) as [x|] eqn:E; [|reflexivity].
    rewrite (dget_q _ E). reflexivity.
  - cbn [fold_left]. rewrite <- IH. f_equal. unfold d' at 1. rewrite dget_without by assumption.
    destruct (dget d k) as [[x|c]|] eqn:E; try reflexivity.
    apply raise_counts_without; [|exact N]. apply (Hcirc k), dget_In, E.
Qed.

Lemma need_prm_without acc kv : fst kv <> q -> need_prm (without q acc) kv = without q (need_prm acc kv).
Proof.
  intros N. unfold need_prm. rewrite dget_without by assumption.
  destruct (dget acc (fst kv)); [destruct (_ <? _)|]; try reflexivity; rewrite dset_without by assumption; reflexivity.
Qed.
Lemma need_prm_q acc n : without q (need_prm acc (q, n)) = without q acc.
Proof.
  unfold need_prm. cbn [fst snd]. destruct (dget acc q); [destruct (_ <? _)|]; try reflexivity; apply dset_without_same.
Qed.
Lemma needed_without (l : list (step V)) acc :
  fold_left need_step (map (unmeasured q) l) (without q acc) = without q (fold_left need_step l acc).
Proof.
  revert acc. induction l as [|s l IH]; intros acc; cbn [map fold_left]; [reflexivity|].
  rewrite <- IH. f_equal. destruct s as [m|s|o]; cbn [unmeasured need_step]; try reflexivity. cbn [ms_counts].
  revert acc. induction (ms_counts m) as [|[x n] c IHc]; intros acc; [reflexivity|]. rewrite without_cons.
  cbn [fold_left]. destruct (String.eqb_spec x q) as [->|N].
  - rewrite IHc. rewrite <- (IHc (need_prm acc (q, n))). rewrite need_prm_q, IHc. reflexivity.
  - cbn [fold_left]. rewrite need_prm_without by exact N. apply IHc.
Qed.

(** ** Initial state *)
Definition gs_without (g : gstate V) : gstate V :=
  GState (without q (g_counts g)) (without q (g_lat g)) (without q (g_mech g)) (without q (g_prm g)).

Lemma gen_prm_state_without C L g kv w g1 w1 : fst kv <> q ->
  gen_prm_state C L g kv w = (Ok g1, w1) -> gen_prm_state C L (gs_without g) kv w = (Ok (gs_without g1), w1).
Proof.
  intros N E. unfold gen_prm_state in *. cbn [gs_without g_counts g_lat g_mech g_prm].
  rewrite dgetE_without, dmem_without by exact N.
  apply bind_lift_ok in E as (n & En & E). unfold bind at 1, lift at 1. rewrite En.
  apply bind_ok in E as (lats & w2 & E1 & E). rewrite (bind_eval _ _ _ _ _ E1).
  apply bind_lift_ok in E as (cs & Ec & E).
  assert (Hm : dmem (g_counts g) (fst kv) = true).
  { unfold dmem. unfold dgetE in En. destruct (dget (g_counts g) (fst kv)); [reflexivity | discriminate]. }
  rewrite Hm in *. injection Ec as <-. unfold bind at 1, lift at 1. rewrite ?dgetE_without by exact N.
  apply bind_ok in E as (prms & w3 & E2 & E). unfold ret in E. injection E as <- <-.
  destruct (snd kv) as [x|c].
  - apply bind_lift_ok in E2 as (n' & En' & E2). apply bind_ok in E2 as (v & w4 & E3 & E2).
    unfold ret in E2. injection E2 as <- <-.
    unfold bind at 1 2, lift. rewrite ?dgetE_without by exact N. rewrite En'. rewrite (bind_eval _ _ _ _ _ E3).
    unfold ret, gs_without. cbn [g_counts g_lat g_mech g_prm]. rewrite !dset_without by exact N. reflexivity.
  - unfold ret in E2. injection E2 as <- <-. unfold bind, ret, gs_without. cbn [g_counts g_lat g_mech g_prm].
    rewrite !dset_without by exact N. reflexivity.
Qed.
Lemma gen_prm_state_q C L g x w g1 w1 :
  gen_prm_state C L g (q, x) w = (Ok g1, w1) -> gs_without g1 = gs_without g.
Proof.
  intros E. unfold gen_prm_state in E. cbn [fst snd] in E.
  apply bind_lift_ok in E as (n & En & E).
  apply bind_ok in E as (lats & w2 & E1 & E).
  apply bind_lift_ok in E as (cs & Ec & E).
  assert (Hm : dmem (g_counts g) q = true).
  { unfold dmem. unfold dgetE in En. destruct (dget (g_counts g) q); [reflexivity | discriminate]. }
  rewrite Hm in *. injection Ec as <-.
  apply bind_ok in E as (prms & w3 & E2 & E). unfold ret in E. injection E as <- <-.
  destruct x as [x|c].
  - apply bind_lift_ok in E2 as (n' & En' & E2). apply bind_ok in E2 as (v & w4 & E3 & E2).
    unfold ret in E2. injection E2 as <- <-. unfold gs_without. cbn [g_counts g_lat g_mech g_prm].
    rewrite !dset_without_same. reflexivity.
  - unfold ret in E2. injection E2 as <- <-. unfold gs_without. cbn [g_counts g_lat g_mech g_prm].
    rewrite !dset_without_same. reflexivity.
Qed.

Hypothesis Hbirth : forall n x, In (n, x) d -> n <> q -> birth_in G x.
Hypothesis Hbirthq : birth_in nG (PDeg p).

Lemma dev_init_without counts C L w st cs w1 w' :
  dev_init_state d counts C L w = (Ok (st, cs), w1) -> agree w w' ->
  exists w1', dev_init_state d' (without q counts) C L w' = (Ok (state_without q st, without q cs), w1') /\ agree w1 w1'.
Proof.
  intros E Ag. unfold dev_init_state in *. apply bind_ok in E as (g & w2 & E1 & E).
  unfold ret in E. injection E as <- <- <-.
  destruct (foldM_skip (fun kv => negb (String.eqb (fst kv) q))
    (fun g w g' w' => g' = gs_without g /\ agree w w') (gen_prm_state C L) (gen_prm_state C L) d) with (3 := E1)
    (s' := gs_without (GState counts [] [] [])) (w' := w') as (g' & w2' & E2 & -> & Ag2).
  - intros s [n x] v s1 v1 s' v' Hin Kk Es [-> Av]. cbn [fst] in Kk.
    destruct (String.eqb_spec n q) as [->|]; [|discriminate]. split.
    + symmetry. exact (gen_prm_state_q _ _ _ _ _ _ _ Es).
    + refine (spared _ _ _ _ _ _ Es Av). apply confined_gen_prm. cbn [snd]. rewrite (Hq x Hin). exact Hbirthq.
  - intros s [n x] v s1 v1 s' v' Hin Kk Es [-> Av]. cbn [fst] in Kk.
    destruct (String.eqb_spec n q) as [->|N]; [discriminate|].
    destruct (kept _ _ _ _ _ (confined_gen_prm G C L s (n, x) (Hbirth n x Hin N)) Es Av) as (v1' & Es' & Av').
    eexists _, v1'. split; [apply gen_prm_state_without; [exact N | exact Es']|]. split; [reflexivity | exact Av'].
  - split; [reflexivity | exact Ag].
  - exists w2'. split; [|exact Ag2]. unfold d'. change (gs_without (GState counts [] [] [])) with
      (GState (without q counts) [] [] [] : gstate V) in E2. rewrite (bind_eval _ _ _ _ _ E2). reflexivity.
Qed.

(** ** Conditions *)
Lemma prm_conds_counts chip counts prm conds w : prm <> q ->
  gen_prm_conds e chip (without q counts) prm conds w = gen_prm_conds e chip counts prm conds w.
Proof. intros N. unfold gen_prm_conds. rewrite dgetE_without by exact N. reflexivity. Qed.
Lemma sensor_conds_counts batch counts prm w : prm <> q ->
  gen_sensor_conds e batch (without q counts) prm w = gen_sensor_conds e batch counts prm w.
Proof. intros N. unfold gen_sensor_conds. rewrite dgetE_without by exact N. reflexivity. Qed.

(** the loop over the parameters *)
Lemma cond_loop_without (base : dict V) bc counts b prms w r w1 w' :
  (forall x y c, In x prms -> x <> q -> dget d x = Some y -> In c (dependencies y (dkeys base) b) -> device_in G e c) ->
  (forall c, In q prms -> In c (dependencies (PDeg p) (dkeys base) b) -> device_in nG e c) ->
  (forall x, In x prms -> x <> q -> dget d x = None -> dmem (fst bc) x = true -> cond_in G e x) ->
  (In q prms -> dget d q = Some (PDeg p)) ->
  let go d counts acc prm :=
    (v <- (match dget d prm with
           | Some x => gen_prm_conds e (snd bc) counts prm (dependencies x (dkeys base) b)
           | None => gen_sensor_conds e (fst bc) counts prm
           end) ;; ret (dset acc prm v))%m in
  foldM (go d counts) prms [] w = (Ok r, w1) -> agree w w' ->
  exists w1', foldM (go d' (without q counts)) (filter (fun k => negb (String.eqb k q)) prms) [] w' = (Ok (without q r), w1') /\ agree w1 w1'.
Proof.
  intros I Iq Is Pq go E Ag.
  destruct (foldM_skip (fun k => negb (String.eqb k q))
    (fun (a : dict (dict (pyval V))) w a' w' => a' = without q a /\ agree w w') (go d counts) (go d' (without q counts)) prms) with (3 := E)
    (s' := without q ([] : dict (dict (pyval V)))) (w' := w') as (r' & w1' & E' & -> & Ag').
  - intros s x v s1 v1 s' v' Hin Kk Es [-> Av]. destruct (String.eqb_spec x q) as [->|]; [|discriminate].
    unfold go in Es. rewrite (Pq Hin) in Es. apply bind_ok in Es as (y & v2 & Es & E2). unfold ret in E2. injection E2 as <- <-.
    split; [symmetry; apply dset_without_same|].
    refine (spared _ _ _ _ _ _ Es Av). apply confined_prm_conds. intros c Hc. exact (Iq c Hin Hc).
  - intros s x v s1 v1 s' v' Hin Kk Es [-> Av]. destruct (String.eqb_spec x q) as [->|N]; [discriminate|].
    unfold go in *. apply bind_ok in Es as (y & v2 & Es & E2). unfold ret in E2. injection E2 as <- <-.
    unfold d'. rewrite dget_without by exact N. destruct (dget d x) as [z|] eqn:Ez.
    + destruct (kept _ _ _ _ _ (confined_prm_conds G e _ _ _ _ (fun c => I x z c Hin N Ez)) Es Av) as (v2' & Es' & Av').
      rewrite <- prm_conds_counts in Es' by exact N. rewrite (bind_eval _ _ _ _ _ Es').
      eexists _, v2'. split; [reflexivity|]. split; [|exact Av']. symmetry. apply dset_without, N.
    + destruct (kept _ _ _ _ _ (confined_sensor_conds G e _ _ _ (Is x Hin N Ez)) Es Av) as (v2' & Es' & Av').
      rewrite <- sensor_conds_counts in Es' by exact N. rewrite (bind_eval _ _ _ _ _ Es').
      eexists _, v2'. split; [reflexivity|]. split; [|exact Av']. symmetry. apply dset_without, N.
  - split; [reflexivity | exact Ag].
  - exists w1'. split; [exact E' | exact Ag'].
Qed.

Definition info_without (i : tinfo) : tinfo := TInfo (ti_chps i) (ti_lots i) (without q (ti_counts i)).

Lemma env_list_without (base : dict V) prms i b w r w1 w' :
  (forall c, In c (dkeys base) -> shared_in G e c) ->
  (forall x y c, In x prms -> x <> q -> dget d x = Some y -> In c (dependencies y (dkeys base) b) -> device_in G e c) ->
  (forall c, In q prms -> In c (dependencies (PDeg p) (dkeys base) b) -> device_in nG e c) ->
  (forall x, In x prms -> x <> q -> dget d x = None -> cond_in G e x) ->
  (In q prms -> dget d q = Some (PDeg p)) ->
  gen_env_cond_vals e base (PList prms) (Some i) (Some d) b 1 1 w = (Ok r, w1) -> agree w w' ->
  exists w1', gen_env_cond_vals e base (PList (filter (fun k => negb (String.eqb k q)) prms)) (Some (info_without i)) (Some d') b 1 1 w'
    = (Ok (without q r), w1') /\ agree w1 w1'.
Proof.
  intros I1 I2 I3 I4 I5 E Ag. unfold gen_env_cond_vals in *. cbn [info_without ti_chps ti_lots ti_counts].
  apply bind_ok in E as (bc & w2 & E1 & E).
  destruct (kept _ _ _ _ _ (confined_chip_conds G e _ _ base I1) E1 Ag) as (w2' & E1' & Ag2).
  rewrite (bind_eval _ _ _ _ _ E1').
  apply bind_ok in E as (pc & w3 & E2 & E). unfold ret in E2. injection E2 as <- <-. cbn [fst snd] in E.
  unfold bind at 1. cbn [ret fst snd].
  exact (cond_loop_without base bc (ti_counts i) b prms w2 r w1 w2' I2 I3 (fun x h1 h2 h3 _ => I4 x h1 h2 h3) I5 E Ag2).
Qed.
Lemma env_counts_without (base : dict V) cs i b w r w1 w' :
  (forall c, In c (dkeys base) -> shared_in G e c) ->
  (forall x y c, In x (dkeys cs) -> x <> q -> dget d x = Some y -> In c (dependencies y (dkeys base) b) -> device_in G e c) ->
  (forall c, In q (dkeys cs) -> In c (dependencies (PDeg p) (dkeys base) b) -> device_in nG e c) ->
  (forall x, In x (dkeys cs) -> x <> q -> dget d x = None -> cond_in G e x) ->
  (In q (dkeys cs) -> dget d q = Some (PDeg p)) ->
  gen_env_cond_vals e base (PCounts cs) (Some i) (Some d) b 1 1 w = (Ok r, w1) -> agree w w' ->
  exists w1', gen_env_cond_vals e base (PCounts (without q cs)) (Some (info_without i)) (Some d') b 1 1 w'
    = (Ok (without q r), w1') /\ agree w1 w1'.
Proof.
  intros I1 I2 I3 I4 I5 E Ag. unfold gen_env_cond_vals in *. cbn [info_without ti_chps ti_lots ti_counts].
  apply bind_ok in E as (bc & w2 & E1 & E).
  destruct (kept _ _ _ _ _ (confined_chip_conds G e _ _ base I1) E1 Ag) as (w2' & E1' & Ag2).
  rewrite (bind_eval _ _ _ _ _ E1').
  apply bind_ok in E as (pc & w3 & E2 & E). unfold ret in E2. injection E2 as <- <-. cbn [fst snd] in E.
  unfold bind at 1. cbn [ret fst snd]. rewrite dkeys_without.
  exact (cond_loop_without base bc cs b (dkeys cs) w2 r w1 w2' I2 I3 (fun x h1 h2 h3 _ => I4 x h1 h2 h3) I5 E Ag2).
Qed.

(** ** Stress steps *)
Lemma deg_prms_without : deg_prms d' = filter (fun kv => negb (String.eqb (fst kv) q)) (deg_prms d).
Proof.
  unfold d', deg_prms. clear. induction d as [|[n x] l IH]; [reflexivity|]. rewrite without_cons.
  cbn [flat_map fst snd]. destruct (String.eqb n q) eqn:E.
  - rewrite IH. destruct x; cbn [app filter fst]; rewrite ?E; reflexivity.
  - cbn [flat_map fst snd]. rewrite IH. destruct x; cbn [app filter fst]; rewrite ?E; reflexivity.
Qed.
Lemma map_fst_filter {A} (f : string -> bool) (l : list (string * A)) :
  map fst (filter (fun kv => f (fst kv)) l) = filter f (map fst l).
Proof. induction l as [|[k a] l IH]; [reflexivity|]. cbn [filter map fst]. destruct (f k); cbn [map fst]; rewrite IH; reflexivity. Qed.
Lemma in_deg_prms n x : In (n, x) (deg_prms d) -> In (n, PDeg x) d.
Proof.
  unfold deg_prms. intros Hin. apply in_flat_map in Hin as ([n' y] & Hy & Hin). destruct y as [y|]; [|destruct Hin].
  cbn in Hin. destruct Hin as [Hin|[]]. injection Hin as <- <-. exact Hy.
Qed.

Lemma stress_prm_without conds rep dur st n x w st1 w1 : n <> q ->
  stress_prm conds rep dur st (n, x) w = (Ok st1, w1) ->
  stress_prm (without q conds) (report_without q rep) dur (state_without q st) (n, x) w = (Ok (state_without q st1), w1).
Proof.
  intros N E. unfold stress_prm in *. cbn [fst snd state_without report_without st_mech st_mech0 st_lat st_prm st_prm0
    st_elapsed rp_counts rp_lots rp_chps] in *.
  rewrite !dgetE_without by exact N.
  apply bind_lift_ok in E as (n' & E1 & E). apply bind_lift_ok in E as (mv & E2 & E).
  apply bind_lift_ok in E as (cs & E3 & E). apply bind_lift_ok in E as (m0 & E4 & E).
  apply bind_lift_ok in E as (ls & E5 & E). apply bind_ok in E as (eq & w2 & E6 & E).
  apply bind_lift_ok in E as (ts & E7 & E). apply bind_lift_ok in E as (i0 & E8 & E).
  apply bind_ok in E as (r & w3 & E9 & E). unfold ret in E. injection E as <- <-.
  unfold bind at 1 2 3 4 5, lift at 1 2 3 4 5. rewrite E1, E2, E3, E4, E5.
  rewrite (bind_eval _ _ _ _ _ E6). unfold bind at 1 2, lift. rewrite E7. rewrite ?dgetE_without by exact N. rewrite E8.
  rewrite (bind_eval _ _ _ _ _ E9). unfold ret, state_without. cbn [st_mech st_mech0 st_lat st_prm st_prm0 st_elapsed].
  rewrite !dset_without by exact N. reflexivity.
Qed.
Lemma stress_prm_q conds rep dur st x w st1 w1 :
  stress_prm conds rep dur st (q, x) w = (Ok st1, w1) -> state_without q st1 = state_without q st.
Proof.
  intros E. unfold stress_prm in E. cbn [fst snd] in E.
  apply bind_lift_ok in E as (n' & E1 & E). apply bind_lift_ok in E as (mv & E2 & E).
  apply bind_lift_ok in E as (cs & E3 & E). apply bind_lift_ok in E as (m0 & E4 & E).
  apply bind_lift_ok in E as (ls & E5 & E). apply bind_ok in E as (eq & w2 & E6 & E).
  apply bind_lift_ok in E as (ts & E7 & E). apply bind_lift_ok in E as (i0 & E8 & E).
  apply bind_ok in E as (r & w3 & E9 & E). unfold ret in E. injection E as <- <-.
  unfold state_without. cbn [st_mech st_mech0 st_lat st_prm st_prm0 st_elapsed]. rewrite !dset_without_same. reflexivity.
Qed.

Hypothesis Hpq : dget d q = Some (PDeg p).
Hypothesis Hwf : dwf d.
Variable steps : list (step V).
Hypothesis Hothers : forall n x, In (n, x) d -> n <> q -> parameter_in G e steps n x.
Hypothesis Hown : parameter_in nG e steps q (PDeg p).
Hypothesis Hrest : surroundings_in G e d steps.

Lemma stress_step_without i s st rep w st1 rep1 w1 w' : In (SStrs s) steps ->
  stress_step e d i s st rep w = (Ok (st1, rep1), w1) -> agree w w' ->
  exists w1', stress_step e d' i s (state_without q st) (report_without q rep) w'
    = (Ok (state_without q st1, report_without q rep1), w1') /\ agree w1 w1'.
Proof.
  intros Hs E Ag. unfold stress_step in *. apply bind_ok in E as (conds & w2 & E1 & E).
  destruct (env_list_without (ss_conds s) (map fst (deg_prms d)) (info_of rep) true w conds w2 w') as (w2' & E1' & Ag2).
  - intros c Hc. exact (proj1 Hrest s c Hs Hc).
  - intros x y c Hx N Hy Hc. apply in_map_iff in Hx as ([x' z] & Ex & Hx). cbn [fst] in Ex. subst x'.
    apply in_deg_prms in Hx. assert (Ey : y = PDeg z) by (rewrite (dget_wf_In _ _ _ Hwf Hx) in Hy; injection Hy as <-; reflexivity).
    subst y. destruct (Hothers x _ Hx N) as (_ & (_ & _ & Hd) & _). exact (Hd s c Hs Hc).
  - intros c _ Hc. destruct Hown as (_ & (_ & _ & Hd) & _). exact (Hd s c Hs Hc).
  - intros x Hx N Hy. exfalso. apply in_map_iff in Hx as ([x' z] & Ex & Hx). cbn [fst] in Ex. subst x'.
    apply in_deg_prms in Hx. rewrite (dget_wf_In _ _ _ Hwf Hx) in Hy. discriminate.
  - intros _. exact Hpq.
  - exact E1.
  - exact Ag.
  - rewrite deg_prms_without, (map_fst_filter (fun k => negb (String.eqb k q))).
    change (info_of (report_without q rep)) with (info_without (info_of rep)). rewrite (bind_eval _ _ _ _ _ E1').
    apply bind_ok in E as (st2 & w3 & E2 & E).
    destruct (foldM_skip (fun kv : string * degprm V => negb (String.eqb (fst kv) q))
      (fun st w st' w' => st' = state_without q st /\ agree w w')
      (stress_prm conds rep (ss_dur s)) (stress_prm (without q conds) (report_without q rep) (ss_dur s)) (deg_prms d))
      with (3 := E2) (s' := state_without q st) (w' := w2') as (st2' & w3' & E2' & -> & Ag3).
    + intros u [n x] v u1 v1 u' v' Hin Kk Es [-> Av]. cbn [fst] in Kk.
      destruct (String.eqb_spec n q) as [->|]; [|discriminate]. split.
      * symmetry. exact (stress_prm_q _ _ _ _ _ _ _ _ Es).
      * refine (spared _ _ _ _ _ _ Es Av). apply confined_stress_prm. cbn [snd].
        apply in_deg_prms in Hin. apply Hq in Hin. injection Hin as ->.
        destruct Hown as (_ & (Ha & _) & _). exact Ha.
    + intros u [n x] v u1 v1 u' v' Hin Kk Es [-> Av]. cbn [fst] in Kk.
      destruct (String.eqb_spec n q) as [->|N]; [discriminate|].
      assert (Ha : ageing_in G x).
      { apply in_deg_prms in Hin. destruct (Hothers _ _ Hin N) as (_ & (Ha & _) & _). exact Ha. }
      destruct (kept _ _ _ _ _ (confined_stress_prm G conds rep (ss_dur s) u (n, x) Ha) Es Av) as (v1' & Es' & Av').
      eexists _, v1'. split; [apply stress_prm_without; [exact N | exact Es']|]. split; [reflexivity | exact Av'].
    + split; [reflexivity | exact Ag2].
    + rewrite (bind_eval _ _ _ _ _ E2').
      apply bind_lift_ok in E as (t & Et & E). apply bind_lift_ok in E as (t0 & Et0 & E).
      unfold ret in E. injection E as <- <- <-.
      cbn [state_without st_elapsed]. unfold bind, lift. rewrite Et, Et0. unfold ret.
      exists w3'. split; [reflexivity | exact Ag3].
Qed.

(** ** Measurement steps *)
Lemma gather_without args (a b c acc : dict (pyval V)) : ~ In q args ->
  gather args [a; b; without q c] acc = gather args [a; b; c] acc.
Proof.
  revert acc. induction args as [|x args IH]; intros acc N; cbn [gather]; [reflexivity|].
  rewrite dget_without by (intros ->; apply N; left; reflexivity). apply IH. intros Hx; apply N; right; exact Hx.
Qed.
Lemma format_param (v : pyval V) x t i b rows : format_measurements v x t i b = Ok rows -> Forall (fun r => r_param r = x) rows.
Proof.
  unfold format_measurements. destruct (match v with PDict _ => _ | _ => _ end) as [a|]; [cbn [rbind]|discriminate].
  destruct (meas_dims (nshape a)) as [[[nl nc] nv]|]; [cbn [rbind]|discriminate].
  destruct (nreshape _ a) as [y|]; [cbn [rbind]|discriminate]. intros E. injection E as <-. destruct b.
  - generalize (np_tile (seq 0 nv) (nc * nl)) (np_tile (np_repeat (seq 0 nc) nv) nl) (np_repeat (seq 0 nl) (nv * nc)) (ndata y).
    induction l as [|k l IH]; intros [|k1 l1] [|k2 l2] [|k3 l3]; cbn; auto.
  - apply Forall_forall. intros r Hr. apply in_map_iff in Hr as (z & <- & _). reflexivity.
Qed.
Lemma measure_prm_param d0 i conds sc st (rep : report V) x k w rows w1 :
  measure_prm e d0 i conds sc st rep x k w = (Ok rows, w1) -> Forall (fun r => r_param r = x) rows.
Proof.
  intros E. unfold measure_prm in E. apply bind_ok in E as (rs & w2 & E1 & E).
  apply bind_ok in E as (vals & w3 & _ & E). unfold ret in E. injection E as <- _.
  assert (K : Forall (fun r => r_param r = x) rs).
  { destruct (dget (st_prm st) x) as [cur|].
    - destruct (dget d0 x) as [[y|c]|]; try discriminate E1.
      apply bind_lift_ok in E1 as (cs & _ & E1). apply bind_lift_ok in E1 as (ls & _ & E1).
      apply bind_ok in E1 as (v & w4 & _ & E1). unfold lift in E1. injection E1 as E1 _. exact (format_param _ _ _ _ _ _ E1).
    - destruct (dget d0 x) as [[y|c]|]; try discriminate E1.
      + apply bind_lift_ok in E1 as (cs & _ & E1). apply bind_lift_ok in E1 as (ls & _ & E1).
        apply bind_ok in E1 as (v & w4 & _ & E1). unfold lift in E1. injection E1 as E1 _. exact (format_param _ _ _ _ _ _ E1).
      + destruct (dmem sc x); [|discriminate E1].
        apply bind_lift_ok in E1 as (cs & _ & E1). apply bind_lift_ok in E1 as (v & _ & E1).
        unfold lift in E1. injection E1 as E1 _. exact (format_param _ _ _ _ _ _ E1). }
  clear - K. revert vals. induction K as [|r rs Er _ IH]; intros [|v vals]; cbn [combine map]; constructor; auto.
Qed.

Lemma measure_prm_without i conds sc st (rep : report V) x k w : x <> q ->
  measure_prm e d' i (without q conds) sc (state_without q st) (report_without q rep) x k w =
  measure_prm e d i conds sc st rep x k w.
Proof.
  intros N. unfold measure_prm. cbn [state_without report_without st_prm st_lat st_elapsed rp_lots rp_chps].
  unfold d'. rewrite !dget_without, !dgetE_without by exact N.
  destruct (dget (st_prm st) x) as [cur|]; [reflexivity|]. destruct (dget d x) as [[y|c]|] eqn:Ex; try reflexivity.
  unfold circ_vals. unfold bind, lift. destruct (dgetE conds x) as [cs|]; [|reflexivity].
  destruct (dgetE (st_lat st) x) as [ls|]; [|reflexivity].
  rewrite gather_without; [reflexivity|]. apply (Hcirc x), dget_In, Ex.
Qed.

Let keep_row (r : row V) : bool := negb (String.eqb (r_param r) q).
Lemma filter_rows_other x (rows : list (row V)) : x <> q -> Forall (fun r => r_param r = x) rows -> filter keep_row rows = rows.
Proof.
  intros N F. induction F as [|r rows Er _ IH]; [reflexivity|]. cbn [filter]. unfold keep_row at 1. rewrite Er.
  destruct (String.eqb_spec x q); [contradiction|]. cbn [negb]. rewrite IH. reflexivity.
Qed.
Lemma filter_rows_q (rows : list (row V)) : Forall (fun r => r_param r = q) rows -> filter keep_row rows = [].
Proof.
  intros F. induction F as [|r rows Er _ IH]; [reflexivity|]. cbn [filter]. unfold keep_row at 1. rewrite Er, String.eqb_refl.
  exact IH.
Qed.

Lemma meas_step_without i m st rep w st1 rep1 w1 w' : In (SMeas m) steps ->
  meas_step e d i m st rep w = (Ok (st1, rep1), w1) -> agree w w' ->
  exists w1', meas_step e d' i (MeasSpec (without q (ms_counts m)) (ms_conds m) (ms_name m)) (state_without q st) (report_without q rep) w'
    = (Ok (state_without q st1, report_without q rep1), w1') /\ agree w1 w1'.
Proof.
  intros Hs E Ag. unfold meas_step in *. cbn [ms_counts ms_conds ms_name]. apply bind_ok in E as (conds & w2 & E1 & E).
  destruct (env_counts_without (ms_conds m) (ms_counts m) (info_of rep) false w conds w2 w') as (w2' & E1' & Ag2).
  - intros c Hc. exact (proj1 (proj2 Hrest) m c Hs Hc).
  - intros x y c Hx N Hy Hc. destruct (Hothers x y (dget_In _ _ _ Hy) N) as (_ & _ & Hd & _). exact (Hd m c Hs Hx Hc).
  - intros c Hx Hc. destruct Hown as (_ & _ & Hd & _). exact (Hd m c Hs Hx Hc).
  - intros x Hx N Hy. exact (proj1 (proj2 (proj2 Hrest) m x Hs Hx Hy)).
  - intros _. exact Hpq.
  - exact E1.
  - exact Ag.
  - change (info_of (report_without q rep)) with (info_without (info_of rep)). rewrite (bind_eval _ _ _ _ _ E1').
    apply bind_ok in E as (rows & w3 & E2 & E). unfold ret in E. injection E as <- <- <-.
    destruct (foldM_skip (fun kv : string * nat => negb (String.eqb (fst kv) q))
      (fun rows w rows' w' => rows' = filter keep_row rows /\ agree w w')
      (fun acc (kv : string * nat) => (r <- measure_prm e d i conds (ms_conds m) st rep (fst kv) (snd kv) ;; ret (acc ++ r))%m)
      (fun acc (kv : string * nat) => (r <- measure_prm e d' i (without q conds) (ms_conds m) (state_without q st) (report_without q rep) (fst kv) (snd kv) ;; ret (acc ++ r))%m)
      (ms_counts m)) with (3 := E2) (s' := filter keep_row []) (w' := w2') as (rows' & w3' & E2' & -> & Ag3).
    + intros u [x k] v u1 v1 u' v' Hin Kk Es [-> Av]. cbn [fst snd] in *.
      destruct (String.eqb_spec x q) as [->|]; [|discriminate].
      apply bind_ok in Es as (r & v2 & Es & E3). unfold ret in E3. injection E3 as <- <-. split.
      * rewrite filter_app, (filter_rows_q r) by exact (measure_prm_param _ _ _ _ _ _ _ _ _ _ _ Es).
        rewrite app_nil_r. reflexivity.
      * refine (spared _ _ _ _ _ _ Es Av). destruct Hown as (_ & (_ & Hr & _) & _ & He). apply confined_measure_prm.
        -- exact (He m Hs (in_map fst _ _ Hin)).
        -- intros y Hy. rewrite Hpq in Hy. injection Hy as <-. exact Hr.
        -- intros c Hc. rewrite Hpq in Hc. discriminate.
    + intros u [x k] v u1 v1 u' v' Hin Kk Es [-> Av]. cbn [fst snd] in *.
      destruct (String.eqb_spec x q) as [->|N]; [discriminate|].
      apply bind_ok in Es as (r & v2 & Es & E3). unfold ret in E3. injection E3 as <- <-.
      assert (Cf : confined G (measure_prm e d i conds (ms_conds m) st rep x k)).
      { apply confined_measure_prm.
        - destruct (dget d x) as [y|] eqn:Ey.
          + destruct (Hothers x y (dget_In _ _ _ Ey) N) as (_ & _ & _ & He). exact (He m Hs (in_map fst _ _ Hin)).
          + exact (proj2 (proj2 (proj2 Hrest) m x Hs (in_map fst _ _ Hin) Ey)).
        - intros y Hy. destruct (Hothers x _ (dget_In _ _ _ Hy) N) as (_ & (_ & Hr & _) & _). exact Hr.
        - intros c Hc. destruct (Hothers x _ (dget_In _ _ _ Hc) N) as (_ & Hr & _). exact Hr. }
      destruct (kept _ _ _ _ _ Cf Es Av) as (v2' & Es' & Av').
      rewrite <- measure_prm_without in Es' by exact N. rewrite (bind_eval _ _ _ _ _ Es').
      eexists _, v2'. split; [reflexivity|]. split; [|exact Av'].
      rewrite filter_app, (filter_rows_other x r N) by exact (measure_prm_param _ _ _ _ _ _ _ _ _ _ _ Es). reflexivity.
    + split; [reflexivity | exact Ag2].
    + unfold without at 1. rewrite (bind_eval _ _ _ _ _ E2'). unfold ret.
      exists w3'. split; [|exact Ag3]. f_equal. f_equal. f_equal.
      unfold report_without, add_summary, add_measurements. cbn [rp_chps rp_lots rp_counts rp_meas rp_sum state_without st_elapsed].
      f_equal. rewrite filter_app. reflexivity.
Qed.

(** ** Whole simulations *)
Lemma run_without l : (forall s, In s l -> In s steps) ->
  forall i st rep w st1 rep1 w1 w',
  run_steps e d i l st rep w = (Ok (st1, rep1), w1) -> agree w w' ->
  exists w1', run_steps e d' i (map (unmeasured q) l) (state_without q st) (report_without q rep) w'
    = (Ok (state_without q st1, report_without q rep1), w1') /\ agree w1 w1'.
Proof.
  unfold run_steps. induction l as [|s l IH]; intros Hl i st rep w st1 rep1 w1 w' E Ag; cbn [enumerate foldM map] in *.
  - unfold ret in *. injection E as <- <- <-. exists w'. split; [reflexivity | exact Ag].
  - apply bind_ok in E as ([st2 rep2] & w2 & E1 & E).
    specialize (IH (fun s Hs => Hl s (or_intror Hs))).
    assert (K : exists w2', sim_step e d' (state_without q st, report_without q rep) (i, unmeasured q s) w'
      = (Ok (state_without q st2, report_without q rep2), w2') /\ agree w2 w2').
    { unfold sim_step in *. destruct s as [m|s|o]; cbn [fst snd unmeasured] in *.
      - exact (meas_step_without i m st rep w st2 rep2 w2 w' (Hl _ (or_introl eq_refl)) E1 Ag).
      - exact (stress_step_without i s st rep w st2 rep2 w2 w' (Hl _ (or_introl eq_refl)) E1 Ag).
      - unfold ret in *. injection E1 as <- <- <-. exists w'. split; [reflexivity | exact Ag]. }
    destruct K as (w2' & E2 & Ag2). rewrite (bind_eval _ _ _ _ _ E2). exact (IH _ _ _ _ _ _ _ _ E Ag2).
Qed.

Lemma simulate_without C L w st rep w1 w' :
  simulate e d steps C L None w = (Ok (st, rep), w1) -> agree w w' ->
  exists w1', simulate e d' (map (unmeasured q) steps) C L None w'
    = (Ok (state_without q st, report_without q rep), w1') /\ agree w1 w1'.
Proof.
  intros E Ag. unfold simulate in *. apply bind_ok in E as (r & w2 & E1 & E).
  unfold gen_init_state in *. cbn [rp_counts rp_chps rp_lots report_init] in *.
  apply bind_ok in E1 as ([s cs] & w3 & E1 & E2). unfold ret in E2. injection E2 as <- <-.
  cbn [fst snd ir_report ir_state] in *.
  destruct (dev_init_without _ _ _ _ _ _ _ _ E1 Ag) as (w3' & E1' & Ag3).
  assert (Ec : calc_samples_needed (map (unmeasured q) steps) = without q (calc_samples_needed steps)).
  { exact (needed_without steps []). }
  assert (Ea : fst (augment d' (calc_samples_needed (map (unmeasured q) steps), None) (dkeys (calc_samples_needed (map (unmeasured q) steps))))
    = without q (fst (augment d (calc_samples_needed steps, None) (dkeys (calc_samples_needed steps))))).
  { rewrite Ec, dkeys_without.
    exact (f_equal fst (augment_without (dkeys (calc_samples_needed steps)) (calc_samples_needed steps, None))). }
  rewrite Ea. unfold bind at 1. rewrite (bind_eval _ _ _ _ _ E1'). cbn [ret fst snd ir_report ir_state].
  destruct (run_without steps (fun s Hs => Hs) _ _ _ _ _ _ _ _ E Ag3) as (w1' & E3 & Ag1).
  exists w1'. split; [|exact Ag1]. rewrite <- E3. reflexivity.
Qed.
End Foot3.

Lemma parameter_removed {V : Type} `{NumOps V} `{Rng V} `{HashOrd} (G : nat -> Prop) (e : env V) (d : device V) q p steps C L w st rep w1 :
  dwf d -> dget d q = Some (PDeg p) ->
  (forall n c, dget d n = Some (PCirc c) -> ~ In q (compute_args (lm_eqn c))) ->
  (forall n x, dget d n = Some x -> n <> q -> parameter_in G e steps n x) ->
  parameter_in (fun g => ~ G g) e steps q (PDeg p) -> surroundings_in G e d steps ->
  simulate e d steps C L None w = (Ok (st, rep), w1) ->
  exists w1', simulate e (without q d) (map (unmeasured q) steps) C L None w
    = (Ok (state_without q st, report_without q rep), w1').
Proof.
  intros Hwf Hp Hc Ho Hown Hr E.
  assert (Hu : forall n x, In (n, x) d -> dget d n = Some x) by (intros; apply dget_wf_In; assumption).
  destruct (simulate_without G q e d p) with (5 := Hp) (6 := Hwf) (steps := steps) (C := C) (L := L) (w := w)
    (st := st) (rep := rep) (w1 := w1) (w' := w) as (w1' & E' & _); try assumption.
  - intros x Hx. apply Hu in Hx. rewrite Hp in Hx. injection Hx as <-. reflexivity.
  - intros n c Hn. exact (Hc n c (Hu _ _ Hn)).
  - intros n x Hn N. exact (proj1 (Ho n x (Hu _ _ Hn) N)).
  - exact (proj1 Hown).
  - intros n x Hn N. exact (Ho n x (Hu _ _ Hn) N).
  - intros g _. reflexivity.
  - exists w1'. exact E'.
Qed.
