(** The exact rows of both tables of a well-posed experiment. *)
From Coq Require Import Lia Arith.
From Verif Require Import M_Base M_Num M_Nd M_RandVar M_Latent M_Time M_TestSpec M_Minimize M_Device M_Report M_Env M_Sim
  S_Latent S_TestSpec S_Device S_Env S_Sim S_Report S_Shape S_Reading
  L_Base L_Nd L_Device L_Env L_Env2 L_Env3 L_Sim L_Sim2 L_Sim3 L_Report L_Shape L_Shape2 S_Total S_Rows L_Total L_Total2 L_Value L_Reading.
Open Scope nat_scope.

Section L.
Context {V : Type} `{NumOps V} `{Rng V} `{HashOrd}.

(** ** Measurements *)
Lemma measure_exact e d l i m st (rep : report V) prm k conds wa wb w g w' : env_ok e l -> device_ok d l (rp_lots rep) (rp_chps rep) -> test_ok d l ->
  In (SMeas m) l -> In (prm, k) (ms_counts m) -> counted d l (rp_counts rep) ->
  inv d (rp_lots rep) (rp_chps rep) (rp_counts rep) st ->
  gen_env_cond_vals e (ms_conds m) (PCounts (ms_counts m)) (Some (info_of rep)) (Some d) false 1 1 wa = (Ok conds, wb) ->
  measure_prm e d i conds (ms_conds m) st rep prm k w = (Ok g, w') ->
  rows_exact d l (rp_lots rep) (rp_chps rep) (prm, k) g.
Proof.
  intros Oe O Ot Hm Hk Hc I Ec E. destruct (to_wf _ _ Ot _ Hm) as [Wc Wn].
  assert (F := proj1 I). unfold rows_exact. cbn [fst snd].
  assert (M : measured e d (rp_lots rep) (rp_chps rep) st conds (prm, k) g).
  { destruct (dget d prm) as [[p|c]|] eqn:Hd.
    - destruct (F _ _ Hd) as (n & _ & _ & _ & _ & B1 & _).
      eapply (measure_measured e d) with (m := m) (n := n) (ns := needs d l); eauto; [exact (dk_wf _ _ _ _ O)|exact (dk_regular _ _ _ _ O)|left; exists m; auto| |].
      + intros p' Hp. assert (N := proj1 (do_names _ _ _ (dk_deg _ _ _ _ O _ _ Hp))). split; intros Hx; apply N in Hx; tauto.
      + intros p' Hp. split; auto. apply (proj1 Hc _ _ B1). left. exists m. auto.
    - eapply (measure_measured e d) with (m := m) (n := 0) (ns := needs d l); eauto; [exact (dk_wf _ _ _ _ O)|exact (dk_regular _ _ _ _ O)|left; exists m; auto|rewrite Hd; discriminate|rewrite Hd; discriminate].
    - eapply (measure_measured e d) with (m := m) (n := 0) (ns := needs d l); eauto; [exact (dk_wf _ _ _ _ O)|exact (dk_regular _ _ _ _ O)|left; exists m; auto|rewrite Hd; discriminate|rewrite Hd; discriminate]. }
  destruct M as (cs & Hcs & M). cbn [fst snd] in Hcs, M. destruct (dget d prm) as [[p|c]|] eqn:Hd.
  - destruct M as (truth & _ & _ & M). exact M.
  - destruct M as (ls & v & w1 & w2 & El & Ev & M).
    destruct (circ_at _ _ _ _ _ _ _ _ _ _ _ _ _ Oe O Ot Hm Hk Hc I Ec Hd Hcs) as (ls' & El' & Rc).
    assert (ls' = ls) by congruence. subst ls'. destruct (Rc w1) as (v' & w2' & Ev' & a & n & -> & A1 & A2 & A3).
    rewrite Ev in Ev'. injection Ev' as -> _. exists m, n. split; auto. split; auto. split; auto. exact (proj2 (M _ _ _ _ eq_refl A1 A2)).
  - destruct M as (a & _ & _ & M). exact M.
Qed.

Lemma run_rows_exact e d l : env_ok e l -> test_ok d l -> forall l', incl l' l -> forall i st (rep : report V) w st' rep' w', device_ok d l (rp_lots rep) (rp_chps rep) ->
  counted d l (rp_counts rep) -> inv d (rp_lots rep) (rp_chps rep) (rp_counts rep) st ->
  run_steps e d i l' st rep w = (Ok (st', rep'), w') ->
  (exists rows, rp_meas rep' = rp_meas rep ++ rows /\
     table_of (fun i t kv g => stamped i t kv g /\ rows_exact d l (rp_lots rep) (rp_chps rep) kv g) i (st_elapsed st) l' rows) /\ same_info rep rep'.
Proof.
  intros Oe Ot l' Hi i st rep w st' rep' w' O Hc I E.
  eapply run_tableP with (P := fun s => In s l) (I := inv d (rp_lots rep) (rp_chps rep) (rp_counts rep)) (rep0 := rep)
    (group := fun i t kv g => stamped i t kv g /\ rows_exact d l (rp_lots rep) (rp_chps rep) kv g) in E as (A & _ & B); auto; [|clear E..|now repeat split].
  - intros j s s1 r1 w1 s2 r2 w2 Hs (Q1 & Q2 & Q3) Hf Es.
    assert (Rn := fun A B => stress_step_runs e d l j s s1 r1 Oe A B Hs). rewrite Q1, Q2, Q3 in Rn.
    destruct (Rn O (fun q n Hq => proj1 (proj1 Hc _ _ Hq)) (to_wf _ _ Ot _ Hs) Hf w1) as ([s3 r3] & w3 & E3 & I3 & _). rewrite Es in E3. injection E3 as <- <- <-. exact I3.
  - intros j m s1 r1 w1 conds w2 [prm k] w3 g w4 Hm (Q1 & Q2 & Q3) Hf Ec Hin Em. cbn [fst snd] in *.
    split; [eapply measure_prm_stamp; eauto|]. rewrite <- Q1, <- Q2 in *. rewrite <- Q3 in *. eapply measure_exact; eauto.
Qed.

Lemma simulate_rows_stamped e d l chps lots w st rep w' : env_ok e l -> device_ok d l lots chps -> test_ok d l ->
  simulate e d l chps lots None w = (Ok (st, rep), w') ->
  table_of (fun i t kv g => stamped i t kv g /\ rows_exact d l lots chps kv g) 0 (TD 0) l (rp_meas rep) /\
  rp_chps rep = chps /\ rp_lots rep = lots /\ forall q n, dget (rp_counts rep) q = Some n <-> greatest (needs d l q) n.
Proof.
  intros Oe O Ot E. pose proof (counts_counted d l (dk_plain _ _ _ _ O) Ot) as Hc.
  apply simulate_run in E as (st0 & rep0 & w0 & E & M0 & _ & C0 & L0 & T0 & _ & _ & _ & st1 & Ei & -> & Q); [|exact (dk_wf _ _ _ _ O)].
  assert (I : inv d (rp_lots rep0) (rp_chps rep0) (rp_counts rep0) (set_elapsed st1 (TD 0))).
  { rewrite C0, L0. apply (dev_init_inv _ _ _ _ _ _ _ _ _ O) in Ei; [|rewrite Q; intros q n Hq; exact (proj1 (proj1 Hc _ _ Hq))]. destruct Ei as (F & I2 & I3 & I4 & I5 & x & Ex). split; [exact F|].
    cbn [set_elapsed st_lat st_mech0 st_prm st_elapsed]. repeat split; eauto. }
  rewrite <- Q in Hc. apply (run_rows_exact _ _ _ Oe Ot l (fun y h => h)) in E as ((rows & R & T) & S1 & S2 & S3); auto; [|now rewrite C0, L0].
  rewrite M0 in R. cbn [app] in R. subst rows. rewrite C0, L0, T0 in *. split; auto. split; [congruence|]. split; [congruence|].
  intros q n. rewrite S3, Q. apply needs_counts. exact (dk_plain _ _ _ _ O).
Qed.

Lemma Forall2_mono {A B} (P Q : A -> B -> Prop) : (forall a b, P a b -> Q a b) -> forall l l', Forall2 P l l' -> Forall2 Q l l'.
Proof. intros M l l' F. induction F; constructor; auto. Qed.
Lemma table_mono (P Q : nat -> tval -> string * nat -> list (row V) -> Prop) l : (forall i t kv g m, In (SMeas m) l -> In kv (ms_counts m) -> P i t kv g -> Q i t kv g) ->
  forall i t rows, table_of P i t l rows -> table_of Q i t l rows.
Proof.
  intros M i t rows T. induction T as [i t|i t o l rs T IH|i t m l gs rs F T IH|i t s l rs T IH]; constructor; eauto using in_cons.
  assert (M' : forall kv g, In kv (ms_counts m) -> P i t kv g -> Q i t kv g) by (intros; eapply M; eauto; now left).
  clear - F M'. induction F as [|kv g kvs gs Hg F IH]; constructor; [apply M'; cbn; auto|]. apply IH. intros kv' g' Hk. apply M'. now right.
Qed.

Theorem simulate_rows_exact e d l chps lots w st rep w' : env_ok e l -> device_ok d l lots chps -> test_ok d l ->
  simulate e d l chps lots None w = (Ok (st, rep), w') ->
  table_of (fun _ _ => rows_exact d l lots chps) 0 (TD 0) l (rp_meas rep) /\
  rp_chps rep = chps /\ rp_lots rep = lots /\ forall q n, dget (rp_counts rep) q = Some n <-> greatest (needs d l q) n.
Proof.
  intros Oe O Ot E. destruct (simulate_rows_stamped _ _ _ _ _ _ _ _ _ Oe O Ot E) as (T & R). split; auto.
  eapply table_mono; [|exact T]. intros i t kv g m _ _ (_ & X). exact X.
Qed.

(** How many rows there are. *)
Lemma table_length (P : string * nat -> list (row V) -> Prop) f l : forall i t rows,
  (forall m kv g, In (SMeas m) l -> In kv (ms_counts m) -> P kv g -> length g = f kv) ->
  table_of (fun _ _ => P) i t l rows -> length rows = row_count f l.
Proof.
  induction l as [|x l IH]; intros i t rows K T; inversion T as [|? ? ? ? ? T'|? ? m ? gs rs F T'|? ? s ? ? T']; subst; cbn [row_count]; auto.
  - apply (IH _ _ _ (fun m kv g Hm => K m kv g (or_intror Hm)) T').
  - rewrite app_length, (IH _ _ _ (fun m kv g Hm => K m kv g (or_intror Hm)) T'). f_equal.
    assert (K' : forall kv g, In kv (ms_counts m) -> P kv g -> length g = f kv) by (intros; eapply K; eauto; now left).
    clear -F K'. induction F as [|kv g kvs gs Hg F IH]; [reflexivity|]. cbn. rewrite app_length, IH; [|intros; apply K'; cbn; auto].
    rewrite (K' kv g); cbn; auto.
  - apply (IH _ _ _ (fun m kv g Hm => K m kv g (or_intror Hm)) T').
Qed.

(** ** The summary *)
Lemma summary_row_conds name kind i dur start stop (conds : dict V) : dwf conds ->
  row_conds (summary_row name kind i dur start stop conds) conds.
Proof.
  intros W c v Hc. unfold summary_row. rewrite dget_dupdate.
  - rewrite (dget_map (fun x => CNum x)), Hc. reflexivity.
  - unfold dwf, dkeys. rewrite map_map. exact W.
Qed.

Lemma run_summary_exact e d l : forall i st (rep : report V) w st' rep' w' t, plain_names l -> (forall s, In s l -> step_wf s) -> only_steps l ->
  st_elapsed st = TD t -> run_steps e d i l st rep w = (Ok (st', rep'), w') ->
  exists rows, rp_sum rep' = rp_sum rep ++ rows /\ summary_exact l i t rows.
Proof.
  induction l as [|x l IH]; intros i st rep w st' rep' w' t P Ws Os Et E.
  - apply ret_ok in E as [E ->]. injection E as -> ->. exists []. rewrite app_nil_r. split; auto. split; auto. intros [|] ? ? Q; discriminate Q.
  - rewrite run_cons in E. apply bind_ok in E as ([st1 rep1] & w1 & E1 & E2). cbn [fst snd] in E2.
    assert (Px : forall c, In c (step_conds x) -> ~ In c columns) by (intros c; apply P; now left).
    assert (P' : plain_names l) by (intros s c Hs; apply (P s c); now right).
    assert (Ws' : forall s, In s l -> step_wf s) by (intros s Hs; apply Ws; now right).
    assert (Os' : only_steps l) by (intros o Ho; apply (Os o); now right).
    pose proof (Ws x (or_introl eq_refl)) as Wx.
    destruct x as [m|s|o]; cbn [sim_step fst snd] in E1.
    + apply meas_step_ok in E1 as (conds & rws & w2 & _ & _ & -> & ->).
      apply (IH _ _ _ _ _ _ _ t P' Ws' Os' Et) in E2 as (rows & R1 & R2 & R3). cbn [add_summary add_measurements rp_sum] in R1.
      rewrite <- app_assoc in R1. eexists. split; [exact R1|]. cbn [app]. split; [cbn; now rewrite R2|].
      intros [|y l1] s l2 Q; injection Q as <- Q.
      * eexists. split; [reflexivity|]. cbn [length Nat.add summary_says]. rewrite Nat.add_0_r. change (stress_time []) with 0%Z. rewrite Z.add_0_r, <- Et. split; [apply summary_row_says; auto|apply summary_row_conds, Wx].
      * destruct (R3 _ _ _ Q) as (r & N & S). exists r. split; auto. cbn [length]. rewrite Nat.add_succ_r. exact S.
    + apply stress_step_ok in E1 as (conds & st2 & w2 & x & _ & Ef & Ex & -> & ->).
      apply stress_fold_same in Ef as (_ & Ef & _). assert (x = t) by congruence. subst x.
      apply (IH _ _ _ _ _ _ _ (t + ss_dur s)%Z P' Ws' Os') in E2 as (rows & R1 & R2 & R3); [|reflexivity].
      cbn [add_summary rp_sum] in R1. rewrite <- app_assoc in R1. eexists. split; [exact R1|]. cbn [app]. split; [cbn; now rewrite R2|].
      intros [|y l1] s' l2 Q; injection Q as <- Q.
      * eexists. split; [reflexivity|]. cbn [length Nat.add summary_says]. rewrite Nat.add_0_r. change (stress_time []) with 0%Z. rewrite Z.add_0_r. split; [apply summary_row_says; auto|apply summary_row_conds, Wx].
      * destruct (R3 _ _ _ Q) as (r & N & S). exists r. split; auto. cbn [length]. rewrite Nat.add_succ_r.
        replace (t + stress_time (SStrs s :: l1))%Z with (t + ss_dur s + stress_time l1)%Z; [exact S|].
        unfold stress_time. cbn [map total step_time]. lia.
    + destruct (Os o). now left.
Qed.

Theorem simulate_summary_exact e d l chps lots w st rep w' : device_wf d -> plain_names l -> (forall s, In s l -> step_wf s) -> only_steps l ->
  simulate e d l chps lots None w = (Ok (st, rep), w') -> summary_exact l 0 0 (rp_sum rep).
Proof.
  intros W P Ws Os E. apply simulate_run in E as (st0 & rep0 & w0 & E & _ & S0 & _ & _ & T0 & _); auto.
  destruct (run_summary_exact _ _ _ _ _ _ _ _ _ _ _ P Ws Os T0 E) as (rows & R & S). rewrite S0 in R. cbn in R. now subst rows.
Qed.
End L.
