(** Changing conditions: values and readings as curves of the exposure (C91). *)
From Coq Require Import Reals QArith Qreals Lra Lia.
From Flocq Require Import Core.
From Verif Require Import M_Base M_Num M_NumR M_Nd M_RandVar M_Latent M_Time M_TestSpec M_Minimize M_Device M_Report M_Env M_Sim
  S_Latent S_TestSpec S_Minimize S_Device S_DeviceR S_Env S_Sim S_Shape S_Total S_Reading S_CookEnv S_History S_HistoryR S_Const S_Search S_Expo
  L_Base L_Nd L_Minimize L_Rising L_Device L_Device2 L_DeviceR L_Env L_Env2 L_Env3 L_CookEnv L_Shape L_Total L_Total2 L_Reading L_History L_HistoryR L_Const L_Search L_Mixed.
Open Scope R_scope.

Section L.
Context `{Rng R} `{HashOrd}.
Variables (s : scene R) (f : formula R) (u : tunit).
Hypothesis K : mc_kind (sc_mech s) = KDeg.
Hypothesis U : unit_map (mc_unit (sc_mech s)) = Some u.
Hypothesis F : given_by (lm_eqn (mc_mdl (sc_mech s))) f.
Notation sh := [sc_lots s; sc_chps s; sc_num s].
Notation idx i := (nth i (indices sh) []).

(** ** One search *)
Lemma time_used_in cs i : strictly_monotone (fun t => 0 <= t) (law_in f s cs i) ->
  In "time"%string (fnames f) /\ dget (sc_lats s) "time" = None /\ dget cs "time" = None.
Proof.
  intros Mo.
  assert (G : forall t t', (In "time"%string (fnames f) -> dget (sc_lats s) "time" = None -> dget cs "time" <> None) -> law_in f s cs i t = law_in f s cs i t').
  { intros t t' N. apply feval_ext. intros x Hx. destruct (dget (sc_lats s) x) eqn:E; auto. destruct (dget cs x) eqn:E2; auto.
    destruct (String.eqb_spec x "time") as [->|]; auto. destruct (N Hx E E2). }
  assert (Ne : law_in f s cs i 0 <> law_in f s cs i 1).
  { destruct Mo as [Mo|Mo]; specialize (Mo 0 1 ltac:(lra) ltac:(lra) ltac:(lra)); intros E; rewrite E in Mo; lra. }
  destruct (in_dec string_dec "time"%string (fnames f)) as [Ht|Ht]; [|destruct Ne; apply G; intros; contradiction].
  destruct (dget (sc_lats s) "time") eqn:E; [destruct Ne; apply G; congruence|].
  destruct (dget cs "time") eqn:E2; [destruct Ne; apply G; congruence|auto].
Qed.

Lemma law_arrays_in cs t args y w0 w1 : (0 < prod sh)%nat -> everywhere s (fun i => strictly_monotone (fun t => 0 <= t) (law_in f s cs i)) ->
  law_args s cs t args -> operands (sc_lots s) (sc_chps s) (sc_num s) args ->
  call_or_loop (lm_eqn (mc_mdl (sc_mech s))) args (sc_lots s) (sc_chps s) (sc_num s) w0 = (Ok y, w1) ->
  forall ts w, length ts = prod sh -> exists fs w',
    call_or_loop (lm_eqn (mc_mdl (sc_mech s))) (mech_args (sc_mech s) (PArr (Nd sh ts)) cs (sc_lats s)) (sc_lots s) (sc_chps s) (sc_num s) w
      = (Ok (PArr (Nd sh fs)), w') /\ length fs = prod sh /\
    forall i t, nth_error ts i = Some t -> nth_error fs i = Some (law_in f s cs (idx i) t).
Proof.
  intros Ps Mo (Wa0 & La0) Oa0 Ey ts w Lt. destruct (time_used_in cs (idx 0)) as (Ht & Nl & Nc); [exact (everywhere_idx s _ Mo 0%nat Ps)|].
  set (a2 := mech_args (sc_mech s) (PArr (Nd sh ts)) cs (sc_lats s)).
  assert (La : law_args s cs (Nd sh ts) a2) by apply law_args_mech.
  assert (Oa : operands (sc_lots s) (sc_chps s) (sc_num s) a2).
  { intros x p Hx. apply dget_wf_In in Hx; [|apply La]. rewrite (proj2 La) in Hx. pose proof (La0 x) as Q.
    destruct (if smem x _ then _ else _) as [p0|].
    - injection Hx as ->. apply dget_In in Q. eapply Oa0; eauto.
    - destruct (String.eqb x "time"); [|discriminate]. injection Hx as <-. right. eexists. split; [reflexivity|]. cbn [nshape ndata]. rewrite Lt, prod3. auto. }
  assert (Ac : accepts (lm_eqn (mc_mdl (sc_mech s))) (dkeys a2)).
  { split.
    - intros x Hx. assert (Dm := called_with _ _ _ _ _ _ _ _ Ey x Hx). unfold dmem in Dm. rewrite La0 in Dm.
      destruct (dget a2 x) as [p|] eqn:E; [apply dget_In in E; apply in_map_iff; exists (x, p); auto|].
      rewrite (proj2 La) in E. destruct (if smem x _ then _ else _); [discriminate|]. destruct (String.eqb x "time"); [discriminate|]. discriminate Dm.
    - intros Ek x Hx. destruct (dget a2 x) as [p|] eqn:E; [|apply dget_None_keys in E; contradiction].
      rewrite (proj2 La) in E. destruct (smem x _) eqn:Sm.
      + apply smem_In in Sm. unfold compute_args in Sm. rewrite Ek, app_nil_r in Sm. now apply in_app_or in Sm.
      + destruct (String.eqb_spec x "time") as [->|]; [|discriminate]. left. now apply F. }
  destruct (computes_now _ (formula_computes _ _ F) _ _ _ a2 w (proj1 La) Oa Ac) as (z & w' & E).
  pose proof (law_value_in s f cs (Nd sh ts) a2 z w w' F La Oa E) as G.
  assert (Sy : shaped (sc_lots s) (sc_chps s) (sc_num s) z).
  { pose proof E as E0. apply try_ok in E as [E|(w2 & _ & E)]; [|eapply loop_shape; eauto]. apply (formula_respects _ _ F _ _ _ a2 w z w' (proj1 La) Oa E).
    exists "time"%string, (Nd sh ts). apply dget_In. rewrite (proj2 La). cbn [first_of]. rewrite Nl, Nc. now destruct (smem _ _). }
  destruct Sy as ([sh' data] & -> & S1 & S2). cbn [nshape ndata] in S1, S2. subst sh'. rewrite <- prod3 in S2.
  exists data, w'. split; [exact E|]. split; [exact S2|]. intros i ti Hi.
  assert (Hlt : (i < prod sh)%nat) by (rewrite <- Lt; apply nth_error_Some; congruence).
  destruct (idx_valid s i Hlt) as [Vi Fi]. assert (Gi := everywhere_idx s _ G i Hlt). cbv beta in Gi. cbn [elem] in Gi.
  assert (D1 := ndata_aget (Nd sh data) (idx i) S2 Vi). assert (D2 := ndata_aget (Nd sh ts) (idx i) Lt Vi).
  cbn [nshape ndata] in D1, D2. rewrite Fi in D1, D2. rewrite D1. rewrite Hi in D2. injection D2 as ->. now rewrite Gi.
Qed.

Lemma search_accurate_in cs dur v t x T : advanced s cs dur v t x -> settles_in s cs v ->
  everywhere s (fun i => strictly_monotone (fun t => 0 <= t) (law_in f s cs i) /\ aget v i = law_in f s cs i (T i) /\ 0 <= T i <= 10000000000) ->
  everywhere s (fun i => (1 - rel_error) * T i - abs_error <= aget t i <= (1 + rel_error) * T i + abs_error).
Proof.
  intros ((V1 & V2) & (T1 & T2) & _ & Ht & (u' & t' & args & y & w & w' & _ & _ & _ & La & Ey & Oa & _)) Se Hv.
  intros l c d Hl Hc Hd.
  assert (Vd : valid sh [l; c; d]) by now apply valid3.
  assert (Hp : (0 < prod sh)%nat) by (pose proof (flat_lt _ _ Vd); lia).
  assert (Mo : everywhere s (fun i => strictly_monotone (fun t => 0 <= t) (law_in f s cs i))) by (intros l0 c0 d0 A1 A2 A3; now apply Hv).
  pose proof (law_arrays_in cs t' args y w w' Hp Mo La Oa Ey) as Law.
  rewrite K in Ht. destruct Ht as (w1 & w1' & Ht). destruct v as [sv vs]. destruct t as [st ts].
  cbn [nshape ndata] in V1, V2, T1, T2. subst sv st. rewrite <- prod3 in V2, T2.
  set (i := flat sh [l; c; d]). assert (Hi : (i < prod sh)%nat) by now apply flat_lt.
  assert (Ei : idx i = [l; c; d]) by (apply nth_error_nth; now apply nth_error_indices).
  assert (Et : nth_error ts i = Some (aget (Nd sh ts) [l; c; d])) by (exact (ndata_aget (Nd sh ts) [l; c; d] T2 Vd)).
  assert (Ne : sh <> []) by discriminate.
  destruct (equiv_time_mixed (sc_mech s) cs (sc_lats s) (fun i => law_in f s cs (idx i)) (fun i => T (idx i)) sh vs (sc_lots s) (sc_chps s) (sc_num s) w1 K Ne V2)
    as (r & w2 & ys & E1 & E2 & Ly & A).
  - intros j Hj. destruct (everywhere_idx s _ Hv j Hj) as (Q1 & Q2 & Q3). split; [exact Q1|]. split; [exact Q3|].
    destruct (idx_valid s j Hj) as [Vj Fj]. assert (D := ndata_aget (Nd sh vs) (idx j) V2 Vj). cbn [nshape ndata] in D. rewrite Fj in D.
    rewrite D. f_equal. exact Q2.
  - intros zs w0 Lz _. now apply Law.
  - rewrite E2 in Ht. injection Ht as <- _. unfold settles_in in Se. cbn [ndata] in Se. rewrite V2 in Se. pose proof (Se _ _ _ E1) as Cv.
    specialize (A Cv i _ Hi Et). now rewrite Ei in A.
Qed.

(** ** One stress *)
Variable g : list nat -> R -> R.
Notation at_ i rts := (map (fun rt : list nat -> R => rt i) rts).
Notation onto rts found := (Forall2 (fun rt (c : dict (pyval R) * (nd R * nd R)) => follows_curve f s g rt (fst c)) rts found).

Lemma stress_exposes eps del rate cs dur v t x X : 0 <= eps -> 0 <= td_num u dur -> advanced s cs dur v t x -> follows_curve f s g rate cs ->
  everywhere s (fun i => 0 <= X i /\ (1 - eps) * (X i / rate i) - del <= aget t i <= (1 + eps) * (X i / rate i) + del /\
    (1 + eps) * X i + rate i * del + rate i * td_num u dur <= 9000000000 * rate i) ->
  everywhere s (fun i => let Y := rate i * (aget t i + td_num u dur) in aget x i = g i Y /\ 0 <= Y /\
    (1 - eps) * X i - rate i * del + rate i * td_num u dur <= Y <= (1 + eps) * X i + rate i * del + rate i * td_num u dur).
Proof.
  intros He Hd Ad Fc HX a b c Ha Hb Hc Y. pose proof (advanced_law_in s f u cs dur v t x K U F Ad a b c Ha Hb Hc) as (Pt & Ev & _).
  destruct (Fc a b c Ha Hb Hc) as [Pr Law]. destruct (HX a b c Ha Hb Hc) as (PX & Ac & Lim). set (r := rate [a; b; c]) in *. set (d := td_num u dur) in *.
  assert (Er : r * (X [a; b; c] / r) = X [a; b; c]) by (field; lra). set (q := X [a; b; c] / r) in *.
  assert (B : (1 - eps) * X [a; b; c] - r * del + r * d <= Y <= (1 + eps) * X [a; b; c] + r * del + r * d).
  { unfold Y. rewrite <- Er. split.
    - assert (r * ((1 - eps) * q - del) <= r * aget t [a; b; c]) by (apply Rmult_le_compat_l; lra). lra.
    - assert (r * aget t [a; b; c] <= r * ((1 + eps) * q + del)) by (apply Rmult_le_compat_l; lra). lra. }
  assert (N : aget t [a; b; c] + d <= 9000000000).
  { apply Rmult_le_reg_l with r; [lra|]. fold Y. lra. }
  split; [|split; [apply Rmult_le_pos; lra|exact B]]. rewrite Ev by exact N. apply Law. lra.
Qed.

(** Arithmetic of the errors. *)
Lemma total_rates_nn rs : (forall r, In r rs -> 0 < r) -> 0 <= total rs.
Proof. intros P. apply total_nn. intros y Hy. specialize (P y Hy). lra. Qed.
Lemma exposure_nn rs : forall ds, (forall r, In r rs -> 0 < r) -> (forall d, In d ds -> 0 <= d) -> 0 <= exposure rs ds.
Proof.
  induction rs as [|r rs IH]; intros [|d ds] P Q; cbn [exposure]; try lra.
  assert (0 <= r * d) by (apply Rmult_le_pos; [left; apply P; now left|apply Q; now left]).
  assert (0 <= exposure rs ds) by (apply IH; intros; [apply P|apply Q]; now right). lra.
Qed.

Lemma errors_up eps del r rs d ds X Y : 0 <= eps <= 1 -> 0 <= del -> 0 < r -> (forall r, In r rs -> 0 < r) -> 0 <= d -> (forall d, In d ds -> 0 <= d) -> 0 <= X -> 0 <= Y ->
  Y <= (1 + eps) * X + r * del + r * d ->
  (1 + eps) ^ length rs * (Y + exposure rs ds + del * total rs) <= (1 + eps) ^ length (r :: rs) * (X + exposure (r :: rs) (d :: ds) + del * total (r :: rs)) /\
  (1 + eps) * X + r * del + r * d <= (1 + eps) ^ length (r :: rs) * (X + exposure (r :: rs) (d :: ds) + del * total (r :: rs)).
Proof.
  intros He Hdl Hr Hrs Hd Hds HX HY L. cbn [length pow exposure total fold_right]. fold (total rs).
  assert (P1 : 1 <= (1 + eps) ^ length rs) by (apply pow_R1_Rle; lra).
  assert (T0 := total_rates_nn rs Hrs). assert (E0 := exposure_nn rs ds Hrs Hds).
  assert (A1 : 0 <= del * total rs) by (apply Rmult_le_pos; lra). assert (A2 : 0 <= r * d) by (apply Rmult_le_pos; lra). assert (A3 : 0 <= r * del) by (apply Rmult_le_pos; lra).
  assert (A4 : 0 <= eps * (r * d + exposure rs ds + del * (r + total rs))) by (apply Rmult_le_pos; lra).
  rewrite (Rmult_comm (1 + eps) ((1 + eps) ^ _)), Rmult_assoc. split.
  - apply Rmult_le_compat_l; lra.
  - rewrite <- (Rmult_1_l ((1 + eps) * X + r * del + r * d)). apply Rmult_le_compat; try lra.
Qed.
Lemma errors_low eps del r rs d ds X Y Z : 0 <= eps <= 1 -> 0 <= del -> 0 < r -> (forall r, In r rs -> 0 < r) -> 0 <= d -> (forall d, In d ds -> 0 <= d) -> 0 <= X ->
  (1 - eps) * X - r * del + r * d <= Y -> (1 - eps) ^ length rs * (Y + exposure rs ds) - del * total rs <= Z ->
  (1 - eps) ^ length (r :: rs) * (X + exposure (r :: rs) (d :: ds)) - del * total (r :: rs) <= Z.
Proof.
  intros He Hdl Hr Hrs Hd Hds HX L Q. cbn [length pow exposure total fold_right]. fold (total rs).
  assert (P1 : 0 <= (1 - eps) ^ length rs) by (apply Rfunctions.pow_le; lra).
  assert (P2 : (1 - eps) ^ length rs <= 1) by (apply Rle_trans with (1 ^ length rs); [apply pow_incr; lra|rewrite pow1; lra]).
  assert (T0 := total_rates_nn rs Hrs). assert (E0 := exposure_nn rs ds Hrs Hds).
  assert (A2 : 0 <= r * d) by (apply Rmult_le_pos; lra). assert (A3 : 0 <= r * del) by (apply Rmult_le_pos; lra).
  assert (A4 : 0 <= eps * (r * d + exposure rs ds)) by (apply Rmult_le_pos; lra).
  assert (B1 : (1 - eps) ^ length rs * ((1 - eps) * (X + (r * d + exposure rs ds)) - r * del) <= (1 - eps) ^ length rs * (Y + exposure rs ds)) by (apply Rmult_le_compat_l; lra).
  assert (B2 : (1 - eps) ^ length rs * (r * del) <= 1 * (r * del)) by (apply Rmult_le_compat_r; lra). lra.
Qed.

Lemma times_nn (l : list (M_TestSpec.step R)) : (forall k, In (SStrs k) l -> (0 <= ss_dur k)%Z) -> forall d, In d (stress_times u l) -> 0 <= d.
Proof.
  intros Hk d Hd. unfold stress_times in Hd. apply in_flat_map in Hd as (z & Hin & Hd). destruct z as [?|z|?]; try (destruct Hd; fail).
  destruct Hd as [<-|[]]. apply (td_num_nn s u U). auto.
Qed.

(** ** Several stresses *)
Lemma travelled_exposed eps del rts l v found x : 0 <= eps <= 1 -> 0 <= del -> (forall k, In (SStrs k) l -> (0 <= ss_dur k)%Z) ->
  travelled s l v found x -> onto rts found -> accurate_in f s eps del found ->
  forall X, everywhere s (fun i => aget v i = g i (X i) /\ 0 <= X i /\ evaluated eps del (at_ i rts) (X i + exposure (at_ i rts) (stress_times u l))) ->
  everywhere s (fun i => exists Y, aget x i = g i Y /\ 0 <= Y /\ exposed eps del (at_ i rts) (X i + exposure (at_ i rts) (stress_times u l)) Y).
Proof.
  intros He Hdl Hk Tr. revert rts.
  induction Tr as [v Fv|m l v found x Tr IH|o l v found x Tr IH|k l v t v1 cs found x Pr Ad Tr IH]; intros rts On Ac X HX.
  - intros a b c Ha Hb Hc. destruct (HX a b c Ha Hb Hc) as (A1 & A2 & _). exists (X [a; b; c]). split; [exact A1|]. split; [exact A2|].
    inversion On; subst. unfold exposed. cbn. lra.
  - apply IH; auto. intros; apply Hk; now right.
  - apply IH; auto. intros; apply Hk; now right.
  - assert (Hd : 0 <= td_num u (ss_dur k)) by (apply (td_num_nn s u U); apply Hk; now left).
    assert (Hk' : forall k0, In (SStrs k0) l -> (0 <= ss_dur k0)%Z) by (intros; apply Hk; now right).
    pose proof (times_nn l Hk') as Hds. set (dk := td_num u (ss_dur k)) in *.
    change (stress_times u (SStrs k :: l)) with (dk :: stress_times u l) in *.
    inversion On as [|rate c0 rts' fd' Fc On' Q1 Q2]; subst. cbn [fst] in Fc. rename rts' into rts.
    assert (Prs : forall a b c, (a < sc_lots s)%nat -> (b < sc_chps s)%nat -> (c < sc_num s)%nat -> 0 < rate [a; b; c] /\ forall r, In r (at_ [a; b; c] rts) -> 0 < r).
    { intros a b c Ha Hb Hc. split; [now apply Fc|]. intros r Hr. apply in_map_iff in Hr as (z & <- & Hz).
      clear - On' Hz Ha Hb Hc. induction On' as [|rt c0 rs fd A On' IHo]; [destruct Hz|]. destruct Hz as [<-|Hz]; [now apply A|now apply IHo]. }
    set (Y := fun i => rate i * (aget t i + dk)).
    assert (St : everywhere s (fun i => aget v1 i = g i (Y i) /\ 0 <= Y i /\
      (1 - eps) * X i - rate i * del + rate i * dk <= Y i <= (1 + eps) * X i + rate i * del + rate i * dk)).
    { refine (stress_exposes eps del rate cs (ss_dur k) v t v1 X (proj1 He) Hd Ad Fc _). intros a b c Ha Hb Hc.
      destruct (HX a b c Ha Hb Hc) as (A1 & A2 & A3). destruct (Prs a b c Ha Hb Hc) as [P1 P2]. split; [exact A2|]. split.
      - destruct (Fc a b c Ha Hb Hc) as [_ Law]. apply (Ac cs v t (or_introl eq_refl) a b c Ha Hb Hc).
        + apply Rmult_le_pos; [lra|]. left. now apply Rinv_0_lt_compat.
        + rewrite A1, Law; [|apply Rmult_le_pos; [lra|]; left; now apply Rinv_0_lt_compat]. f_equal. field. lra.
      - eapply Rle_trans; [|apply (A3 (rate [a; b; c])); now left].
        apply (errors_up eps del _ (at_ [a; b; c] rts) dk (stress_times u l) (X [a; b; c]) 0); auto; try lra.
        assert (0 <= rate [a; b; c] * dk) by (apply Rmult_le_pos; lra). assert (0 <= rate [a; b; c] * del) by (apply Rmult_le_pos; lra).
        assert (0 <= (1 + eps) * X [a; b; c]) by (apply Rmult_le_pos; lra). lra. }
    assert (Next : everywhere s (fun i => aget v1 i = g i (Y i) /\ 0 <= Y i /\ evaluated eps del (at_ i rts) (Y i + exposure (at_ i rts) (stress_times u l)))).
    { intros a b c Ha Hb Hc. destruct (St a b c Ha Hb Hc) as (B1 & B2 & B3). split; [exact B1|]. split; [exact B2|]. intros r Hr.
      destruct (HX a b c Ha Hb Hc) as (A1 & A2 & A3). destruct (Prs a b c Ha Hb Hc) as [P1 P2].
      eapply Rle_trans; [|apply (A3 r); now right]. now apply (errors_up eps del (rate [a; b; c]) _ dk). }
    intros a b c Ha Hb Hc. destruct (IH Hk' rts On' (fun c0 v0 t0 Hin => Ac c0 v0 t0 (or_intror Hin)) Y Next a b c Ha Hb Hc) as (Z & C1 & C2 & C3 & C4).
    destruct (St a b c Ha Hb Hc) as (B1 & B2 & B3). destruct (HX a b c Ha Hb Hc) as (A1 & A2 & A3). destruct (Prs a b c Ha Hb Hc) as [P1 P2].
    exists Z. split; [exact C1|]. split; [exact C2|]. split.
    + apply (errors_low eps del (rate [a; b; c]) (at_ [a; b; c] rts) dk (stress_times u l) (X [a; b; c]) (Y [a; b; c]) Z); auto. apply B3.
    + eapply Rle_trans; [exact C4|]. now apply (errors_up eps del (rate [a; b; c]) _ dk).
Qed.

Lemma travelled_accurate rts l v found x : (forall k, In (SStrs k) l -> (0 <= ss_dur k)%Z) ->
  travelled s l v found x -> onto rts found -> curves s g -> (forall cs v t, In (cs, (v, t)) found -> settles_in s cs v) ->
  forall X, everywhere s (fun i => aget v i = g i (X i) /\ 0 <= X i /\ evaluated rel_error abs_error (at_ i rts) (X i + exposure (at_ i rts) (stress_times u l))) ->
  accurate_in f s rel_error abs_error found.
Proof.
  intros Hk Tr. revert rts. assert (Pe : 0 < rel_error <= 1 /\ 0 < abs_error) by (unfold rel_error, abs_error; lra).
  set (eps := rel_error) in *. set (del := abs_error) in *. destruct Pe as [He Hdl].
  induction Tr as [v Fv|m l v found x Tr IH|o l v found x Tr IH|k l v t v1 cs found x Pr Ad Tr IH]; intros rts On Cu Se X HX.
  - intros ? ? ? [].
  - apply (IH ltac:(intros; apply Hk; now right) rts On Cu Se X HX).
  - apply (IH ltac:(intros; apply Hk; now right) rts On Cu Se X HX).
  - assert (Hd : 0 <= td_num u (ss_dur k)) by (apply (td_num_nn s u U); apply Hk; now left).
    assert (Hk' : forall k0, In (SStrs k0) l -> (0 <= ss_dur k0)%Z) by (intros; apply Hk; now right).
    pose proof (times_nn l Hk') as Hds. set (dk := td_num u (ss_dur k)) in *.
    change (stress_times u (SStrs k :: l)) with (dk :: stress_times u l) in *.
    inversion On as [|rate c0 rts' fd' Fc On' Q1 Q2]; subst. cbn [fst] in Fc. rename rts' into rts.
    assert (Prs : forall a b c, (a < sc_lots s)%nat -> (b < sc_chps s)%nat -> (c < sc_num s)%nat -> 0 < rate [a; b; c] /\ forall r, In r (at_ [a; b; c] rts) -> 0 < r).
    { intros a b c Ha Hb Hc. split; [now apply Fc|]. intros r Hr. apply in_map_iff in Hr as (z & <- & Hz).
      clear - On' Hz Ha Hb Hc. induction On' as [|rt c0 rs fd A On' IHo]; [destruct Hz|]. destruct Hz as [<-|Hz]; [now apply A|now apply IHo]. }
    assert (Up : everywhere s (fun i => (1 + eps) * X i + rate i * del + rate i * dk <= 9000000000 * rate i)).
    { intros a b c Ha Hb Hc. destruct (HX a b c Ha Hb Hc) as (A1 & A2 & A3). destruct (Prs a b c Ha Hb Hc) as [P1 P2].
      eapply Rle_trans; [|apply (A3 (rate [a; b; c])); now left].
      apply (errors_up eps del _ (at_ [a; b; c] rts) dk (stress_times u l) (X [a; b; c]) 0); auto; try lra.
      assert (0 <= rate [a; b; c] * dk) by (apply Rmult_le_pos; lra). assert (0 <= rate [a; b; c] * del) by (apply Rmult_le_pos; lra).
      assert (0 <= (1 + eps) * X [a; b; c]) by (apply Rmult_le_pos; lra). lra. }
    assert (Mo : everywhere s (fun i => strictly_monotone (fun t => 0 <= t) (law_in f s cs i))).
    { intros a b c Ha Hb Hc. destruct (Fc a b c Ha Hb Hc) as [P Law]. specialize (Cu a b c Ha Hb Hc).
      assert (G : forall y z, 0 <= y -> 0 <= z -> y < z -> 0 <= rate [a; b; c] * y /\ 0 <= rate [a; b; c] * z /\ rate [a; b; c] * y < rate [a; b; c] * z)
        by (intros; repeat split; [apply Rmult_le_pos; lra|apply Rmult_le_pos; lra|apply Rmult_lt_compat_l; lra]).
      destruct Cu as [Cu|Cu]; [left|right]; intros y z Hy Hz Hyz; rewrite !Law by auto; destruct (G y z Hy Hz Hyz) as (G1 & G2 & G3); now apply Cu. }
    set (T := fun i => X i / rate i).
    assert (HT : everywhere s (fun i => aget v i = law_in f s cs i (T i) /\ 0 <= T i <= 10000000000)).
    { intros a b c Ha Hb Hc. destruct (HX a b c Ha Hb Hc) as (A1 & A2 & A3). destruct (Prs a b c Ha Hb Hc) as [P1 P2]. specialize (Up a b c Ha Hb Hc). cbv beta in Up.
      destruct (Fc a b c Ha Hb Hc) as [_ Law].
      assert (T0 : 0 <= T [a; b; c]) by (apply Rmult_le_pos; [lra|]; left; now apply Rinv_0_lt_compat).
      assert (Er : rate [a; b; c] * T [a; b; c] = X [a; b; c]) by (unfold T; field; lra).
      split; [rewrite Law, Er; auto|]. split; [exact T0|].
      apply Rmult_le_reg_l with (rate [a; b; c]); [lra|]. rewrite Er.
      assert (0 <= rate [a; b; c] * dk) by (apply Rmult_le_pos; lra). assert (0 <= rate [a; b; c] * del) by (apply Rmult_le_pos; lra).
      assert (0 <= eps * X [a; b; c]) by (apply Rmult_le_pos; lra). lra. }
    assert (Ac1 : everywhere s (fun i => (1 - eps) * T i - del <= aget t i <= (1 + eps) * T i + del)).
    { apply (search_accurate_in cs (ss_dur k) v t v1 T Ad).
      - apply (Se cs v t). now left.
      - intros a b c Ha Hb Hc. split; [now apply Mo|]. now apply HT. }
    set (Y := fun i => rate i * (aget t i + dk)).
    assert (St : everywhere s (fun i => aget v1 i = g i (Y i) /\ 0 <= Y i /\
      (1 - eps) * X i - rate i * del + rate i * dk <= Y i <= (1 + eps) * X i + rate i * del + rate i * dk)).
    { refine (stress_exposes eps del rate cs (ss_dur k) v t v1 X ltac:(lra) Hd Ad Fc _). intros a b c Ha Hb Hc.
      split; [now apply HX|]. split; [exact (Ac1 a b c Ha Hb Hc)|now apply Up]. }
    assert (Rest : accurate_in f s eps del found).
    { apply (IH Hk' rts On' Cu (fun c0 v0 t0 Hin => Se c0 v0 t0 (or_intror Hin)) Y).
      intros a b c Ha Hb Hc. destruct (St a b c Ha Hb Hc) as (B1 & B2 & B3). split; [exact B1|]. split; [exact B2|]. intros r Hr.
      destruct (HX a b c Ha Hb Hc) as (A1 & A2 & A3). destruct (Prs a b c Ha Hb Hc) as [P1 P2].
      eapply Rle_trans; [|apply (A3 r); now right]. apply (errors_up eps del (rate [a; b; c]) _ dk); auto; lra. }
    intros c' v' t' [Q|Hin]; [|now apply Rest]. injection Q as <- <- <-.
    intros a b c Ha Hb Hc tau Ptau Etau. destruct (HT a b c Ha Hb Hc) as (E & P & _). rewrite Etau in E.
    specialize (Mo a b c Ha Hb Hc). cbv beta in Mo.
    assert (tau = T [a; b; c]) as ->; [|now apply Ac1].
    destruct (Rtotal_order tau (T [a; b; c])) as [Lt|[Eq|Gt]]; auto; exfalso.
    + destruct Mo as [Mo|Mo]; specialize (Mo _ _ Ptau P Lt); rewrite E in Mo; lra.
    + destruct Mo as [Mo|Mo]; specialize (Mo _ _ P Ptau Gt); rewrite E in Mo; lra.
Qed.
End L.
