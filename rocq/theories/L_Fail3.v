(** The drawing of vts_paper_tddb_model_sensitivity.py. *)
From Coq Require Import QArith Lqa Lia Arith.
From Verif Require Import M_Base M_Num M_Nd M_RandVar M_Latent M_Time M_TestSpec M_Device M_Report M_Env M_Sim M_Demo M_Script
  S_TestSpec S_Sim S_Total S_Rows S_Demo S_Export S_Script S_Series S_Fail L_Base L_TestSpec L_Rows L_Export L_Export2 L_Demo L_Demo2 L_Demo3 L_Demo4 L_Series L_Script L_Script2 L_Draw L_Draw2 L_Fail2 L_Device L_Reading L_Total M_Export.
Open Scope nat_scope.

(** ** Labels *)
Lemma unique_seen l : forall seen, incl l seen -> unique l seen = [].
Proof.
  induction l as [|x l IH]; intros seen K; [reflexivity|]. cbn [unique].
  replace (existsb (Nat.eqb x) seen) with true; [apply IH; intros y Hy; apply K; now right|]. symmetry. apply existsb_exists. exists x. split; [apply K; now left|apply Nat.eqb_refl].
Qed.
Lemma unique_first l l' : forall seen, NoDup l -> (forall x, In x l -> ~ In x seen) -> (forall x, In x l' -> In x l \/ In x seen) -> unique (l ++ l') seen = l.
Proof.
  induction l as [|x l IH]; intros seen N D K; cbn [app].
  - apply unique_seen. intros x Hx. now destruct (K x Hx).
  - inversion N as [|? ? Nx N']; subst. cbn [unique]. replace (existsb (Nat.eqb x) seen) with false.
    + f_equal. apply IH; auto.
      * intros y Hy [<-|Hs]; [auto|]. apply (D y); cbn; auto.
      * intros y Hy. destruct (K y Hy) as [[<-|Hl]|Hs]; cbn; auto.
    + symmetry. apply Bool.not_true_is_false. intros E. apply existsb_exists in E as (y & Hy & E). apply Nat.eqb_eq in E. subst y. apply (D x); cbn; auto.
Qed.

(** ** Times *)
Lemma week_asked n c k : c < n -> forall i t, map snd (asked "tddb" c i t (cycles k (week (V := Q) n))) = map (fun j => t + Z.of_nat j * 604800000000)%Z (seq 1 k).
Proof.
  intros Hc. apply Nat.ltb_lt in Hc. induction k as [|k IH]; intros i t; [reflexivity|]. cbn [cycles].
  change (week n ++ cycles k (week n)) with ([L_Demo3.load 65 (9 # 10) 108000000000 "Moderate Loading"; L_Demo3.load 88 (92 # 100) 57600000000 "Heavy Loading"; L_Demo3.load 30 (87 # 100) 439200000000 "Idle State"; fail_check n] ++ cycles k (week (V := Q) n)).
  cbn [app asked L_Demo3.load fail_check ms_counts dget String.eqb Ascii.eqb Bool.eqb ss_dur].
  rewrite Hc. cbn [app map snd seq]. rewrite IH. rewrite <- (seq_shift k 1), map_map. f_equal; [lia|]. apply map_ext. intros j. lia.
Qed.
Lemma field_asked n c : c < n -> map snd (asked "tddb" c 0 0 (field_steps (V := Q) n)) = map (fun j => Z.of_nat j * 604800000000)%Z (seq 0 105).
Proof.
  intros Hc. unfold field_steps. cbn [asked fail_check ms_counts dget String.eqb Ascii.eqb Bool.eqb]. pose proof Hc as Hc'. apply Nat.ltb_lt in Hc. rewrite Hc. cbn [app map snd].
  rewrite week_asked by exact Hc'. change (seq 0 105) with (0 :: seq 1 104). cbn [map]. f_equal.
Qed.

(** ** Events *)
Lemma find_at {A} (f : A -> bool) l : forall a r, nth_error l a = Some r -> f r = true -> (forall i x, i < a -> nth_error l i = Some x -> f x = false) -> find f l = Some r.
Proof.
  induction l as [|y l IH]; intros [|a] r E Hr K; try discriminate E; cbn [find].
  - injection E as ->. now rewrite Hr.
  - rewrite (K 0 y ltac:(lia) eq_refl). apply (IH a); auto. intros i x Hi Hx. apply (K (S i)); [lia|exact Hx].
Qed.
Lemma find_no {A} (f : A -> bool) l : (forall x, In x l -> f x = false) -> find f l = None.
Proof. induction l as [|y l IH]; intros K; [reflexivity|]. cbn [find]. rewrite (K y (or_introl eq_refl)). apply IH. intros; apply K; now right. Qed.

Lemma nth_good (good bad i : nat) (x : Q) : nth_error (repeat 1%Q good ++ repeat 0%Q bad) i = Some x -> (i < good /\ x = 1%Q) \/ (good <= i /\ i < good + bad /\ x = 0%Q).
Proof.
  intros E. destruct (Nat.lt_ge_cases i good) as [Hi|Hi].
  - left. split; auto. rewrite nth_error_app1 in E by (rewrite repeat_length; auto). apply nth_error_In in E. now apply repeat_spec in E.
  - right. rewrite nth_error_app2 in E by (rewrite repeat_length; auto). rewrite repeat_length in E.
    assert (i - good < bad) by (rewrite <- (repeat_length 0%Q bad); apply nth_error_Some; congruence). apply nth_error_In in E. apply repeat_spec in E. split; [auto|split; [lia|auto]].
Qed.
Lemma event_is (rows : list (row Q)) its good bad : map r_val rows = repeat 1%Q good ++ repeat 0%Q bad -> 1 <= good -> Forall2 at_step its rows ->
  map snd its = map (fun j => Z.of_nat j * 604800000000)%Z (seq 0 105) -> exists ev, event_of rows = Ok ev /\ lifetime (map r_val rows) ev.
Proof.
  intros Ev Hg F Et.
  assert (Ln : length rows = 105). { rewrite <- (Forall2_length F). apply (f_equal (@length Z)) in Et. rewrite !map_length, seq_length in Et. exact Et. }
  assert (Lb : good + bad = 105). { apply (f_equal (@length Q)) in Ev. rewrite map_length, app_length, !repeat_length in Ev. lia. }
  assert (K : forall i r, nth_error rows i = Some r -> (i < good /\ r_val r = 1%Q) \/ (good <= i /\ i < good + bad /\ r_val r = 0%Q)).
  { intros i r Hr. apply nth_good. rewrite <- Ev. now apply map_nth_error. }
  unfold event_of. destruct bad as [|bad].
  - exists Censored. split.
    + unfold first_change. rewrite find_no.
      * destruct rows as [|r0 rows]; [discriminate Ln|]. cbn [rbind]. destruct (K 0 r0 eq_refl) as [[_ ->]|(X & _)]; [reflexivity|lia].
      * intros x Hx. apply In_nth_error in Hx as (i & Hi). destruct (K i x Hi) as [[_ ->]|(X1 & X2 & _)]; [reflexivity|lia].
    + exists good, 0. auto.
  - destruct (nth_error rows good) as [r|] eqn:Er; [|apply nth_error_None in Er; lia].
    destruct (K _ _ Er) as [[X _]|(_ & _ & Vr)]; [lia|].
    assert (Tr : r_time r = TD (Z.of_nat good * 604800000000)).
    { destruct (nth_error its good) as [it|] eqn:Ei; [|apply nth_error_None in Ei; rewrite (Forall2_length F) in Ei; lia].
      assert (At : at_step it r). { clear -F Er Ei. revert good Er Ei. induction F as [|x y xs ys Hxy F IH]; intros [|g] Er Ei; try discriminate; cbn in *; [congruence|eauto]. }
      destruct At as [_ ->]. f_equal. apply (map_nth_error snd) in Ei. rewrite Et in Ei. rewrite nth_error_map in Ei.
      destruct (nth_error (seq 0 105) good) as [j|] eqn:Ej; [|discriminate]. cbn in Ei. injection Ei as <-.
      apply (nth_error_nth _ _ 0) in Ej. rewrite seq_nth in Ej by lia. now subst j. }
    unfold first_change. rewrite (find_at _ rows good r Er).
    + cbn [rbind]. rewrite Vr. cbn [neqb QOps]. rewrite Tr. eexists. split; [reflexivity|]. exists good, (S bad). split; [exact Ev|]. split; [auto|]. split; [auto|]. split; [discriminate|].
      cbn [ndiv nofQ QOps]. rewrite !Qred_correct. unfold Qdiv, Qeq, Qmult, Qinv, inject_Z. cbn [Qnum Qden]. lia.
    + rewrite Vr. reflexivity.
    + intros i x Hi Hx. destruct (K i x Hx) as [[_ ->]|(X1 & _)]; [reflexivity|lia].
Qed.

Section S.
Context {R : Rng Q} {Ho : HashOrd}.

Lemma table_params (P : string * nat -> list (row Q) -> Prop) name : forall i t l rows, (forall m kv, In (SMeas m) l -> In kv (ms_counts m) -> fst kv = name) ->
  table_of (fun i t kv g => stamped i t kv g /\ P kv g) i t l rows -> forall r, In r rows -> r_param r = name.
Proof.
  intros i t l rows K T. induction T as [i t|i t o l rs T IH|i t m l gs rs F T IH|i t s l rs T IH]; intros r Hr.
  - destruct Hr.
  - apply IH; auto. intros m kv Hm. apply (K m kv). now right.
  - apply in_app_or in Hr as [Hr|Hr]; [|apply IH; auto; intros m' kv Hm; apply (K m' kv); now right].
    assert (K' : forall kv, In kv (ms_counts m) -> fst kv = name) by (intros kv; apply K; now left). clear - F Hr K'.
    induction F as [|kv g kvs gs [St _] F IH]; [destruct Hr|]. cbn [concat] in Hr. apply in_app_or in Hr as [Hr|Hr].
    + destruct (St r Hr) as [-> _]. apply K'. now left.
    + apply IH; auto. intros; apply K'; now right.
  - apply IH; auto. intros m kv Hm. apply (K m kv). now right.
Qed.
Lemma labelled_devs k (g : list (row Q)) : labelled 1 1 k g -> map r_dev g = map Some (seq 0 k).
Proof.
  intros [Ln K]. rewrite !Nat.mul_1_l in Ln. apply nth_error_ext'. intros i. rewrite !nth_error_map. destruct (Nat.lt_ge_cases i k) as [Hi|Hi].
  - destruct (K 0 0 i ltac:(lia) ltac:(lia) Hi) as (r & Er & _ & _ & Hd). rewrite Nat.mul_0_l, !Nat.add_0_l in Er. cbn [Nat.mul Nat.add] in Er. rewrite Er. cbn. rewrite Hd.
    destruct (nth_error (seq 0 k) i) as [j|] eqn:Ej; [|apply nth_error_None in Ej; rewrite seq_length in Ej; lia]. apply (nth_error_nth _ _ 0) in Ej. rewrite seq_nth in Ej by auto. now subst j.
  - rewrite (proj2 (nth_error_None g i)) by lia. rewrite (proj2 (nth_error_None (seq 0 k) i)) by (rewrite seq_length; lia). reflexivity.
Qed.
Lemma devs_labels (l : list (row Q)) ns : map r_dev l = map Some ns -> map_res label l = Ok ns.
Proof.
  revert ns. induction l as [|r l IH]; intros [|n ns] E; try discriminate E; [reflexivity|]. cbn [map] in E. injection E as Er E. cbn [map_res]. unfold label at 1. rewrite Er, (IH _ E). reflexivity.
Qed.
Lemma field_labels k w (r : report Q) w' : reported (field_steps k) 1 1 "tddb" "tddb" k w r w' ->
  exists labels, map_res label (rp_meas r) = Ok labels /\ unique labels [] = seq 0 k.
Proof.
  intros Rp. destruct Rp as (e & d & st & _ & Fs & _ & Hm & _ & _ & _ & T).
  assert (C : forall m, In (SMeas m) (field_steps k) -> ms_counts m = [("tddb"%string, k)]) by exact Hm.
  rewrite field_first in T, C. revert T C. generalize (cycles 104 (week (V := Q) k)). intros l0 T C. inversion T as [| |? ? m l gs rs F T'|]; subst. cbn [ms_counts] in F. inversion F as [|? g ? gs' [_ Lg] F']; subst. inversion F'; subst. cbn [snd] in Lg. cbn [concat] in *. rewrite app_nil_r in *.
  assert (X : exists ns, map r_dev rs = map Some ns /\ forall n, In n ns -> n < k).
  { assert (C' : forall m, In (SMeas m) l0 -> ms_counts m = [("tddb"%string, k)]) by (intros m Hmm; apply C; now right).
    clear -T' C'. induction T' as [i t|i t o l rs T IH|i t m l gs rs F T IH|i t s l rs T IH].
    - exists []. split; [reflexivity|intros n []].
    - apply IH. intros m Hm. apply C'. now right.
    - destruct IH as (ns & E & Hb); [intros m' Hm; apply C'; now right|]. rewrite (C' m (or_introl eq_refl)) in F. inversion F as [|? g ? gs' [_ Lg] F']; subst. inversion F'; subst.
      cbn [concat snd] in *. rewrite app_nil_r. exists (seq 0 k ++ ns). rewrite !map_app, (labelled_devs _ _ Lg), E. split; [reflexivity|]. intros n Hn. apply in_app_or in Hn as [Hn|Hn]; auto. apply in_seq in Hn. lia.
    - apply IH. intros m Hm. apply C'. now right. }
  destruct X as (ns & E & Hb). exists (seq 0 k ++ ns). split.
  - apply devs_labels. now rewrite !map_app, (labelled_devs _ _ Lg), E.
  - apply unique_first; [apply seq_NoDup|intros x _ []|]. intros x Hx. left. apply in_seq. specialize (Hb x Hx). lia.
Qed.
Lemma field_filter k w (r : report Q) w' c : reported (field_steps k) 1 1 "tddb" "tddb" k w r w' ->
  filter (fun x => num_is (r_dev x) c) (rp_meas r) = series "tddb" 0 0 c (rp_meas r).
Proof.
  intros Rp. rewrite <- (one_chip _ _ _ _ _ _ _ c Rp). apply filter_ext_in. intros x Hx.
  destruct Rp as (e & d & st & _ & Fs & _ & Hm & _ & _ & _ & T).
  rewrite (table_params _ "tddb" _ _ _ _) with (r := x) (3 := Hx) (2 := T); [reflexivity|]. intros m kv Im Hk. rewrite (Hm m Im) in Hk. now destruct Hk as [<-|[]].
Qed.

Variable gen : nat -> nat.
Variable here : string.
Hypothesis Hnp : numpy_accepts Q.
Variable ppow : Q -> Q -> Q.

Lemma field_events q w (r : report Q) w' k : k <> 1 -> single_test gen ppow q (field_steps k) w = (Ok r, w') ->
  exists es, events (rp_meas r) = Ok es /\ length es = k /\ forall c ev, nth_error es c = Some ev -> lifetime (map r_val (series "tddb" 0 0 c (rp_meas r))) ev.
Proof.
  intros Hk E. destruct (field_reported gen ppow Hnp k q w Hk) as (r1 & w1 & E1 & Rp). rewrite E in E1. injection E1 as <- <-.
  destruct (field_labels k w r w' Rp) as (labels & El & Eu). unfold events. rewrite El. cbn [rbind]. rewrite Eu.
  assert (Ev : forall c, c < k -> exists ev, event_of (filter (fun x => num_is (r_dev x) c) (rp_meas r)) = Ok ev /\ lifetime (map r_val (series "tddb" 0 0 c (rp_meas r))) ev).
  { intros c Hc. rewrite (field_filter _ _ _ _ c Rp). destruct (field_latched gen ppow Hnp k q w r w' c Hk Hc E) as (a & b & Ea & Ha).
    eapply event_is; [exact Ea|exact Ha|exact (reported_series _ _ _ _ _ _ _ _ _ 0 0 c Rp (le_n 1) (le_n 1))|now apply field_asked]. }
  destruct (map_res_total (fun n => event_of (filter (fun x => num_is (r_dev x) n) (rp_meas r))) (seq 0 k)) as (es & Ee).
  { intros c Hc. apply in_seq in Hc. destruct (Ev c) as (ev & X & _); [lia|eauto]. }
  exists es. split; [exact Ee|]. apply map_res_inv in Ee. split; [rewrite <- (Forall2_length Ee); apply seq_length|].
  intros c ev Hn. destruct (nth_error (seq 0 k) c) as [c'|] eqn:Ec; [|apply nth_error_None in Ec; rewrite (Forall2_length Ee) in Ec; assert (c < length es) by (apply nth_error_Some; congruence); lia].
  assert (Hc : c < k) by (rewrite <- (seq_length k 0); apply nth_error_Some; congruence).
  assert (Q : event_of (filter (fun x => num_is (r_dev x) c') (rp_meas r)) = Ok ev).
  { clear -Ee Ec Hn. revert c Ec Hn. induction Ee as [|x y xs ys Hxy F IH]; intros [|c] Ec Hn; try discriminate; cbn [nth_error] in *; [injection Ec as <-; injection Hn as <-; exact Hxy|eauto]. }
  apply (nth_error_nth _ _ 0) in Ec. rewrite seq_nth in Ec by auto. cbn in Ec. subst c'. destruct (Ev c Hc) as (ev' & X & Hl). rewrite X in Q. injection Q as <-. exact Hl.
Qed.

Lemma run_singles_of l fuel ws rs : field_test (V := Q) 100 fuel = Ok l -> field_run gen ppow fuel ws = Ok rs ->
  forall q r, In (q, r) rs -> exists w', single_test gen ppow q l (ws q) = (Ok r, w').
Proof.
  intros Et E q r Hin. unfold field_run in E. rewrite Et in E. cbn [rbind] in E. apply map_res_inv in E.
  induction E as [|x y xs ys Hxy F IH]; [destruct Hin|]. destruct Hin as [->|Hin]; [|auto]. apply rbind_ok in Hxy as (r' & Er & Hxy). injection Hxy as -> ->.
  destruct (single_test gen ppow q l (ws q)) as [o w'] eqn:Es. cbn [fst] in Er. subst o. eauto.
Qed.
Lemma run_singles fuel ws rs : 104 <= fuel -> field_run gen ppow fuel ws = Ok rs ->
  forall q r, In (q, r) rs -> exists w', single_test gen ppow q (field_steps 100) (ws q) = (Ok r, w').
Proof. intros Hf. exact (run_singles_of _ fuel ws rs (field_test_steps 100 fuel Hf)). Qed.

Theorem field_drawing fuel save fs ws : 104 <= fuel -> exists rs ps fs', field_run gen ppow fuel ws = Ok rs /\
  field_script gen here ppow fuel None save false fs ws = (Draws ps, fs') /\
  stored_all (map (data_path here) field_files) save (field_reports rs) fs fs' /\
  map fst rs = distances /\
  Forall2 (fun x y => fst y = fst x /\ length (snd y) = 100 /\
    forall c ev, nth_error (snd y) c = Some ev -> lifetime (map r_val (series "tddb" 0 0 c (rp_meas (snd x)))) ev) rs ps.
Proof.
  intros Hf. destruct (field_made gen Hnp ppow fuel ws Hf) as (rs & E & En & F & T).
  assert (X : exists fs', (if save then save_all here (combine field_files (field_reports rs)) fs else (None, fs)) = (None, fs') /\
    stored_all (map (data_path here) field_files) save (field_reports rs) fs fs').
  { destruct save; [|exists fs; split; [reflexivity|intros p; reflexivity]]. apply stored_of; auto.
    - unfold field_reports. rewrite map_length. apply (f_equal (@length Q)) in En. rewrite map_length in En. now rewrite En.
    - cbn. repeat constructor; cbn; intuition discriminate. }
  destruct X as (fs' & Es & St).
  assert (Sg := run_singles fuel ws rs Hf E).
  assert (D : exists ps, field_draw (PyDict (map (fun p => (fst (fst p), Made (snd p) (rp_counts (snd (fst p))))) (combine rs (field_reports rs)))) = Ok ps /\
    Forall2 (fun x y => fst y = fst x /\ length (snd y) = 100 /\
      forall c ev, nth_error (snd y) c = Some ev -> lifetime (map r_val (series "tddb" 0 0 c (rp_meas (snd x)))) ev) rs ps).
  { clear E En T Es St. induction rs as [|[q r] rs IH]; [exists []; split; [reflexivity|constructor]|].
    destruct IH as (ps & Ep & Fp); [intros; apply F; now right|intros; apply Sg; now right|].
    destruct (Sg q r (or_introl eq_refl)) as (w' & Eq). destruct (field_events q (ws q) r w' 100 ltac:(discriminate) Eq) as (es & Ee & Le & Hl).
    exists ((q, es) :: ps). split; [|constructor; auto]. cbn [field_reports map combine fst snd field_draw map_res]. 
    assert (Nm : rp_meas r <> []). { destruct (F r (or_introl eq_refl)) as (w & w1 & Rr). eapply rows_some; eauto. rewrite (field_rows gen). discriminate. }
    unfold o_table at 1. unfold xreport_of at 1. cbn [x_meas]. destruct (rp_meas r) as [|x0 l0] eqn:Er; [now destruct Nm|]. cbn [rbind]. rewrite Ee. cbn [rbind].
    unfold field_draw in Ep. unfold field_reports in Ep. rewrite Ep. reflexivity. }
  destruct D as (ps & Ep & Fp). exists rs, ps, fs'. split; [exact E|]. split; [|split; [exact St|split; [exact En|exact Fp]]].
  unfold field_script. rewrite E. fold (field_reports rs). rewrite Es. cbn [finish_all]. rewrite Ep. reflexivity.
Qed.
End S.
