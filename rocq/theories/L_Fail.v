(** Readings of devices that fail for good (C95). *)
From Coq Require Import Lia Arith Sorted.
From Verif Require Import M_Base M_Num M_Nd M_RandVar M_Latent M_Time M_TestSpec M_Minimize M_Device M_Report M_Env M_Sim
  S_Latent S_TestSpec S_Device S_Env S_Sim S_Report S_Shape S_Value S_Reading S_History S_Series S_Fail
  L_Base L_Nd L_Latent L_TestSpec L_Device L_Device2 L_Device3 L_Env L_Env2 L_Env3 L_Sim L_Sim2 L_Sim3 L_Report L_Shape L_Shape2 S_Total L_Total L_Total2 L_Value L_Reading L_History L_Series.
Open Scope nat_scope.

Section L.
Context {V : Type} `{NumOps V} `{Rng V} `{HashOrd}.

(** ** Equations called once per device *)
Lemma operands_sized L C n (args : dict (pyval V)) : operands L C n args -> sized L C n (PDict args).
Proof.
  intros O. constructor. intros x v Hx. destruct (O _ _ Hx) as [[y ->]|(a & -> & A1 & A2)]; [constructor|]. econstructor; eauto.
Qed.
Lemma picks_operands L C n (args : dict (pyval V)) i j k args' : operands L C n args -> i < L -> j < C -> k < n -> picks_all i j k args args' ->
  dkeys args' = dkeys args /\ (forall x v, In (x, v) args' -> exists y, v = PNum y) /\ forall x, value_at args' [0; 0; 0] x = value_at args [i; j; k] x.
Proof.
  intros O Hi Hj Hk G. induction G as [|key v x d d' P G IH|key v d d' P G IH].
  - split; [reflexivity|]. split; [intros x v []|reflexivity].
  - destruct IH as (I1 & I2 & I3); [intros y w Hy; apply (O y); now right|].
    assert (X : exists y, x = PNum y /\ elem v [i; j; k] = y).
    { destruct (O key v ltac:(now left)) as [[y ->]|(a & -> & A1 & A2)].
      - inversion P; subst. exists y. auto.
      - inversion P as [| |a' u n1 n2 n3 Q1 Q2 Q3 Q4 Q5|]; subst. rewrite A1 in Q1. injection Q1 as <- <- <-. exists u. split; auto.
        cbn [elem]. rewrite (flat_get a L C n) in Q5 by auto. now injection Q5. }
    destruct X as (y & -> & Ey). split; [cbn; now f_equal|]. split.
    + intros z u [Q|Hz]; [injection Q as <- <-; eauto|eauto].
    + intros z. unfold value_at in *. cbn [dget]. destruct (String.eqb z key); [exact (eq_sym Ey)|apply I3].
  - exfalso. destruct (O key v ltac:(now left)) as [[y ->]|(a & -> & A1 & A2)]; inversion P.
Qed.
Lemma pointwise_of (f : eqn V) (g : (string -> V) -> V) : numeric f -> (forall env env', (forall x, env x = env' x) -> g env = g env') ->
  (forall L C n args w v w', dwf args -> operands L C n args -> call f args w = (Ok v, w') ->
     forall l c d, l < L -> c < C -> d < n -> elem v [l; c; d] = g (value_at args [l; c; d])) ->
  forall L C n, pointwise L C n f g.
Proof.
  intros Nf Xg G L C n args w v w' W O E l c d Hl Hc Hd. unfold call_or_loop, try_value_error in E.
  destruct (call f args w) as [[v1|er] w1] eqn:Ec; [injection E as <- <-; eapply G; eauto|].
  assert (E' : loop_compute f args L C n w1 = (Ok v, w')) by (destruct er; first [discriminate E|exact E]). clear E.
  apply loop_spec in E' as (vs & K & ->); [|now apply operands_sized]. cbn [elem].
  assert (Y : Forall2 (fun t y => y = g (value_at args (let '(i, j, k) := t in [i; j; k]))) (samples L C n) vs).
  { assert (In3 : forall i j k, In (i, j, k) (samples L C n) -> i < L /\ j < C /\ k < n) by (intros; now apply In_samples).
    revert In3. clear - K Nf Xg G W O. induction K as [w|i j k r w a v x w1 vs w2 P Ec Ev K IH]; intros In3; [constructor|].
    constructor; [|apply IH; intros; apply In3; now right].
    destruct (In3 i j k ltac:(now left)) as (Hi & Hj & Hk). destruct (picks_operands L C n args i j k a O Hi Hj Hk P) as (P1 & P2 & P3).
    assert (Wa : dwf a) by (unfold dwf; rewrite P1; exact W).
    assert (Oa : operands 1 1 1 a) by (intros z u Hz; left; eauto).
    rewrite <- (Xg _ _ P3). rewrite <- (G 1 1 1 a w v w1 Wa Oa Ec 0 0 0) by lia.
    destruct (Nf 1 1 1 a w v w1 Wa Oa Ec) as [[y ->]|(b & -> & B1 & B2)].
    - cbn [elem]. destruct Ev as [Q|[Q|[s Q]]]; congruence.
    - destruct Ev as [Q|[Q|[s Q]]]; try discriminate Q. injection Q as ->. cbn [nshape ndata] in *. subst s. reflexivity. }
  clear K. assert (Ev : vs = map (fun idx => g (value_at args idx)) (indices [L; C; n])).
  { rewrite indices_samples, map_map. clear - Y. induction Y as [|[[i j] k] y r vs Q Y IH]; [reflexivity|]. cbn [map]. now rewrite Q, IH. }
  rewrite Ev. change (Nd [L; C; n] (map (fun idx => g (value_at args idx)) (indices [L; C; n]))) with (nbuild [L; C; n] (fun idx => g (value_at args idx))).
  apply (aget_nbuild [L; C; n] (fun idx => g (value_at args idx)) [l; c; d]). apply valid3. auto.
Qed.
(** Formulas are such equations. *)
Lemma formula_pointwise (f : eqn V) e L C n : given_by f e -> pointwise L C n f (feval e).
Proof. intros Gf args w v w' W O E l c d Hl Hc Hd. exact (formula_elem f e L C n args w v w' l c d Gf W O Hl Hc Hd E). Qed.

(** ** One reading *)
Lemma reading_env L C k (p : degprm V) name st cs truth g : deg_truth L C k p name st cs truth -> pointwise L C k (lm_eqn (dp_own p)) g ->
  exists cur lats, dget (st_prm st) name = Some cur /\ dget (st_lat st) name = Some lats /\
  forall l c d, l < L -> c < C -> d < k -> exists env, env "init"%string = elem cur [l; c; d] /\
    (forall nm m, dget (dp_mechs p) nm = Some m -> env nm = mc_unitary m) /\
    (forall x, x <> "init"%string -> x <> "cond"%string -> ~ In x (dkeys (dp_mechs p)) -> env x = own_values p lats [l; c; d] x) /\
    aget truth [l; c; d] = g env.
Proof.
  intros (cur & current & lats & lats' & cl' & cargs & shift & args & w1 & w2 & w3 & T1 & T2 & T3 & T4 & T5 & T6 & T7 & T8 & T9 & T10 & T11 & T12 & T13 & T14 & T15) Gf.
  exists cur, lats. split; [exact T1|]. split; [exact T3|]. intros l c d Hl Hc Hd. destruct T11 as [Sw Si Sc Sm So _].
  exists (value_at args [l; c; d]). unfold value_at. split; [|split; [|split]].
  - rewrite Si. eapply cut_operand; eauto. exact (T12 _ _ (dget_In _ _ _ Si)).
  - intros nm m Hm. now rewrite (Sm _ _ Hm).
  - intros x N1 N2 N3. rewrite (So _ N1 N2 N3). unfold own_values. destruct (smem x _) eqn:Sx; [|reflexivity].
    unfold value_at. destruct (dget lats' x) as [u|] eqn:Hu.
    + destruct (cut_all_get _ _ _ T4 _ _ Hu) as (v & -> & Cu). eapply cut_operand; eauto.
      apply (T12 x). apply dget_In. now rewrite (So _ N1 N2 N3), Sx.
    + rewrite (cut_all_none _ _ _ _ T4 Hu). reflexivity.
  - exact (Gf args w2 _ w3 Sw T12 T13 l c d Hl Hc Hd).
Qed.

(** ** One stress *)
Lemma composed_env L C n (d : device V) (p : degprm V) name st g counts : dget d name = Some (PDeg p) -> dget counts name = Some n -> state_fits d L C counts st ->
  composed L C n p name st -> pointwise L C n (lm_eqn (dp_own p)) g ->
  exists cur cur0 mv lats, dget (st_prm st) name = Some cur /\ dget (st_prm0 st) name = Some cur0 /\ dget (st_mech st) name = Some mv /\ dget (st_lat st) name = Some lats /\
  forall l c k, l < L -> c < C -> k < n -> exists env, env "init"%string = elem cur0 [l; c; k] /\ env "cond"%string = dp_cunit p /\
    (forall nm, In nm (dkeys (dp_mechs p)) -> env nm = value_at mv [l; c; k] nm) /\
    (forall x, x <> "init"%string -> x <> "cond"%string -> ~ In x (dkeys (dp_mechs p)) -> env x = own_values p lats [l; c; k] x) /\
    elem cur [l; c; k] = g env.
Proof.
  intros Hd Hn F (v & i0 & mv & lats & args & w & w' & C1 & C2 & C3 & C4 & [Cw Ci Cc Cm Co] & C5) Gf.
  destruct (F _ _ Hd) as (n' & mv' & v' & v0 & ls & F1 & F2 & F3 & F4 & (F5 & _) & F6 & (F7 & _) & F8 & F9).
  assert (n' = n) by congruence. assert (mv' = mv) by congruence. assert (v0 = i0) by congruence. assert (ls = lats) by congruence. subst n' mv' v0 ls.
  assert (O : operands L C n args).
  { intros x u Hx. apply dget_wf_In in Hx; [|exact Cw]. destruct (String.eqb_spec x "init") as [->|N1]; [congruence|].
    destruct (String.eqb_spec x "cond") as [->|N2]; [left; exists (dp_cunit p); congruence|].
    destruct (in_dec String.string_dec x (dkeys (dp_mechs p))) as [Hm|N3].
    - destruct (Cm _ Hm) as [_ Q]. apply dmem_keys, dmem_Some in Hm as [m Hm]. destruct (F3 _ _ Hm) as (y & Y1 & Y2). right. congruence.
    - rewrite (Co _ N1 N2 N3) in Hx. destruct (smem x _); [|discriminate]. apply dget_In in Hx. destruct (F9 _ _ Hx) as [S|([Q|Q] & _)]; [now right|contradiction|contradiction]. }
  exists v, i0, mv, lats. do 4 (split; [assumption|]). intros l c k Hl Hc Hk. exists (value_at args [l; c; k]). unfold value_at. split; [now rewrite Ci|]. split; [now rewrite Cc|].
  split; [|split].
  - intros nm Hm. destruct (Cm _ Hm) as [_ ->]. reflexivity.
  - intros x N1 N2 N3. rewrite (Co _ N1 N2 N3). unfold own_values. now destruct (smem x _).
  - exact (Gf args w _ w' Cw O C5 l c k Hl Hc Hk).
Qed.

(** The current value is the initial one, or comes from the mechanisms. *)
Definition sound (L C n : nat) (p : degprm V) (name : string) (st : simstate V) : Prop :=
  dget (st_prm st) name = dget (st_prm0 st) name \/ composed L C n p name st.
Definition now (st : simstate V) (name : string) (idx : list nat) : V := value_at (st_prm st) idx name.

Lemma stress_fails e d i (s : strs_spec V) st rep w st' rep' w' name (p : degprm V) n ns g failed lats l c k :
  device_wf d -> regular_at d (rp_lots rep) (rp_chps rep) ns -> (forall name n, dget (rp_counts rep) name = Some n -> ns name n) -> dwf (ss_conds s) ->
  dget d name = Some (PDeg p) -> ~ In "init"%string (dkeys (dp_mechs p)) -> ~ In "cond"%string (dkeys (dp_mechs p)) -> dget (rp_counts rep) name = Some n ->
  pointwise (rp_lots rep) (rp_chps rep) n (lm_eqn (dp_own p)) g -> dget (st_lat st) name = Some lats ->
  l < rp_lots rep -> c < rp_chps rep -> k < n -> breaks p g failed (own_values p lats [l; c; k]) ->
  state_fits d (rp_lots rep) (rp_chps rep) (rp_counts rep) st -> sound (rp_lots rep) (rp_chps rep) n p name st ->
  stress_step e d i s st rep w = (Ok (st', rep'), w') ->
  state_fits d (rp_lots rep) (rp_chps rep) (rp_counts rep) st' /\ sound (rp_lots rep) (rp_chps rep) n p name st' /\ dget (st_lat st') name = Some lats /\
  (failed (now st name [l; c; k]) -> failed (now st' name [l; c; k])).
Proof.
  intros W Rg Hns Wc Hd Ni Nc Hn Gp Hl Il Ic Ik [Bk Bi Bm _] F Sd E.
  assert (F' := stress_step_shape _ _ _ _ _ _ _ _ _ _ _ W Rg Hns Wc F E).
  destruct (stress_step_composed _ _ _ _ _ _ _ _ _ _ _ _ W Hd Ni Nc E) as (n' & Hn' & Cp'). assert (n' = n) by congruence. subst n'.
  destruct (composed_env _ _ _ _ _ _ _ _ _ Hd Hn F' Cp' Gp) as (cur' & cur0' & mv' & lats' & A1 & A2 & A3 & A4 & A5).
  assert (Ss : same_start st st'). { apply stress_step_ok in E as (conds & st1 & w1 & x & _ & Ef & _ & -> & _). apply stress_fold_same in Ef as (Sf & _). exact Sf. }
  destruct Ss as (S1 & S2 & _). assert (lats' = lats) by congruence. subst lats'.
  split; [exact F'|]. split; [now right|]. split; [congruence|]. unfold now, value_at. rewrite A1.
  destruct (A5 l c k Il Ic Ik) as (env' & B1 & B2 & B3 & B4 & B5). rewrite B5. intros Hf. destruct Sd as [Sd|Sd].
  - apply Bi; [exact B4|]. rewrite B1. rewrite Sd, <- S2, A2 in Hf. exact Hf.
  - destruct (composed_env _ _ _ _ _ _ _ _ _ Hd Hn F Sd Gp) as (cur & cur0 & mv & lats' & A1' & A2' & A3' & A4' & A5'). assert (lats' = lats) by congruence. subst lats'.
    rewrite A1' in Hf. destruct (A5' l c k Il Ic Ik) as (env & D1 & D2 & D3 & D4 & D5). rewrite D5 in Hf. assert (cur0' = cur0) by congruence. subst cur0'.
    apply (Bm env env'); auto.
    + intros x N. destruct (String.eqb_spec x "init") as [->|N1]; [congruence|]. destruct (String.eqb_spec x "cond") as [->|N2]; [congruence|]. rewrite B4, D4; auto.
    + intros nm m Hm Hq. assert (Hi : In nm (dkeys (dp_mechs p))) by exact (in_map fst _ _ (dget_In _ _ _ Hm)). rewrite (D3 _ Hi) in Hq |- *. rewrite (B3 _ Hi).
      assert (Hh : has_mech d name nm m) by (exists p; auto).
      destruct (stress_advances _ _ _ _ _ _ _ _ _ _ _ _ _ _ W Rg Hns Wc F Hh E) as (n' & ls & lt & v & x & t & cs & G1 & G2 & G3 & (mv1 & G4 & G4') & (mv2 & G5 & G5') & _ & G6).
      assert (n' = n) by congruence. assert (mv1 = mv) by congruence. assert (mv2 = mv') by congruence. subst n' mv1 mv2.
      unfold value_at in *. rewrite G4' in *. rewrite G5'. cbn [elem] in *.
      destruct G6 as (_ & _ & _ & _ & (u & t' & args & y & w1 & w2 & _ & _ & _ & _ & _ & _ & G7)). cbn [sc_mech] in G7. specialize (G7 l c k Il Ic Ik). cbv zeta beta in G7.
      rewrite (Bk _ _ Hm), Hq in G7. exact G7.
Qed.

(** ** One measurement *)
(** A row shows the value [v]. *)
Definition tells (p : degprm V) (g : (string -> V) -> V) (own : string -> V) (r : row V) (v : V) : Prop :=
  exists env, env "init"%string = v /\ (forall nm m, dget (dp_mechs p) nm = Some m -> env nm = mc_unitary m) /\
    (forall x, x <> "init"%string -> x <> "cond"%string -> ~ In x (dkeys (dp_mechs p)) -> env x = own x) /\ r_val r = g env.

Lemma group_row L C k (g : list (row V)) name a b c i t truth : labelled L C k g -> stamped i t (name, k) g -> a < L -> b < C -> c < k ->
  nshape truth = [L; C; k] -> length (ndata truth) = L * C * k -> map r_val g = ndata truth ->
  exists r, series name a b c g = [r] /\ r_val r = aget truth [a; b; c].
Proof.
  intros Lb St Ha Hb Hc Sh Ln Em. destruct (group_series L C k g name a b c i t Lb St Ha Hb) as [G _]. destruct (G Hc) as (r & Er & _). exists r. split; [exact Er|].
  destruct Lb as [_ Lb]. destruct (Lb a b c Ha Hb Hc) as (r' & Hr & R1 & R2 & R3).
  assert (In r' (series name a b c g)) as Hi.
  { apply filter_In. split; [eapply nth_error_In; eauto|]. apply belongs_iff. destruct (St r' ltac:(eapply nth_error_In; eauto)) as (Q & _). auto. }
  rewrite Er in Hi. destruct Hi as [<-|[]]. assert (X := map_nth_error r_val _ _ Hr). rewrite Em, (flat_get truth L C k) in X by auto. congruence.
Qed.

Lemma groups_tell e d L C st conds name (p : degprm V) g a b c i t counts gs lats : dwf counts -> dget d name = Some (PDeg p) -> dget e (name ++ "_instm") = None ->
  (forall k, In (name, k) counts -> pointwise L C k (lm_eqn (dp_own p)) g) -> a < L -> b < C -> dget (st_lat st) name = Some lats ->
  Forall2 (fun kv g => measured e d L C st conds kv g /\ stamped i t kv g) counts gs ->
  (series name a b c (concat gs) = [] /\ (forall k, dget counts name = Some k -> k <= c)) \/
  (exists k r, dget counts name = Some k /\ c < k /\ series name a b c (concat gs) = [r] /\ tells p g (own_values p lats [a; b; c]) r (now st name [a; b; c])).
Proof.
  intros W Hd Ne Gp Ha Hb Hl F. induction F as [|[nm k] gr counts gs [M St] F IH]; [left; split; [reflexivity|discriminate]|].
  cbn [concat]. rewrite series_app. inversion W as [|? ? Nk W']; subst.
  destruct (String.eqb_spec nm name) as [->|N].
  - assert (Z : series name a b c (concat gs) = []).
    { apply filter_none. intros r Hr. apply in_concat in Hr as (g' & Hg & Hr). clear - F Nk Hg Hr.
      induction F as [|[nm k'] g0 counts gs [_ St] F IH]; [destruct Hg|]. cbn in Nk. destruct Hg as [->|Hg]; [|apply IH; tauto].
      destruct (belongs name a b c r) eqn:Q; [|reflexivity]. apply belongs_iff in Q as [Q _]. destruct (St _ Hr) as [Q' _]. cbn in Q'. exfalso. apply Nk. left. congruence. }
    rewrite Z, app_nil_r. cbn [dget]. rewrite String.eqb_refl. destruct M as (cs & _ & M). cbn [fst snd] in M. rewrite Hd in M. destruct M as (truth & T & Rd & Lb).
    destruct (le_lt_dec k c) as [Hk|Hk].
    + left. split; [|intros k' Q; injection Q as <-; exact Hk]. apply (group_series L C k gr name a b c i t Lb St Ha Hb). exact Hk.
    + right. apply read_exact in Rd; [|exact Ne].
      destruct T as (cur & current & lats0 & lats' & cl' & cargs & shift & args & w1 & w2 & w3 & T1 & T2 & T3 & T4 & T5 & T6 & T7 & T8 & T9 & T10 & T11 & T12 & T13 & T14 & T15) eqn:ET.
      assert (T0 : deg_truth L C k p name st cs truth) by (do 11 eexists; eauto 20).
      destruct (group_row L C k gr name a b c i t truth Lb St Ha Hb Hk T14 T15 Rd) as (r & Er & Ev). exists k, r. split; [reflexivity|]. split; [exact Hk|]. split; [exact Er|].
      destruct (reading_env _ _ _ _ _ _ _ _ _ T0 (Gp k ltac:(now left))) as (cur' & lats1 & Y1 & Y2 & Y3). assert (lats1 = lats) by congruence. subst lats1.
      destruct (Y3 a b c Ha Hb Hk) as (env & Z1 & Z2 & Z3 & Z4). exists env. split; [unfold now, value_at; rewrite Y1; exact Z1|]. split; [exact Z2|]. split; [exact Z3|congruence].
  - rewrite (other_series (nm, k) gr name a b c i t St N). cbn [app dget]. destruct (String.eqb_spec name nm); [congruence|].
    apply IH; auto. intros k' Hk. apply Gp. now right.
Qed.

(** ** Runs *)
Section Run.
Variables (e : env V) (d : device V) (ns : string -> nat -> Prop) (name : string) (p : degprm V) (n : nat) (g : (string -> V) -> V) (failed : V -> Prop)
  (a b c : nat) (lats : dict (pyval V)) (L C : nat) (counts : dict nat).
Hypothesis W : device_wf d.
Hypothesis Rg : regular_at d L C ns.
Hypothesis Hns : forall x k, dget counts x = Some k -> ns x k.
Hypothesis Nm : forall q p, dget d q = Some (PDeg p) -> ~ In "init"%string (dkeys (dp_mechs p)) /\ ~ In "cond"%string (dkeys (dp_mechs p)).
Hypothesis Hd : dget d name = Some (PDeg p).
Hypothesis Hn : dget counts name = Some n.
Hypothesis Gp : forall k, ns name k -> pointwise L C k (lm_eqn (dp_own p)) g.
Hypothesis Ne : dget e (name ++ "_instm") = None.
Hypothesis Ha : a < L.
Hypothesis Hb : b < C.
Hypothesis Hc : c < n.
Hypothesis Br : breaks p g failed (own_values p lats [a; b; c]).

Definition follows_on (x y : V) : Prop := failed x -> failed y.

Lemma run_fails l : forall i st (rep : report V) w st' rep' w', rp_lots rep = L -> rp_chps rep = C -> rp_counts rep = counts ->
  (forall s, In s l -> step_wf s) -> (forall x k, requests l x k -> ns x k) ->
  (forall x k n p, requests l x k -> dget d x = Some (PDeg p) -> dget counts x = Some n -> k <= n) ->
  state_fits d L C counts st -> sound L C n p name st -> dget (st_lat st) name = Some lats ->
  run_steps e d i l st rep w = (Ok (st', rep'), w') ->
  exists rows vs, rp_meas rep' = rp_meas rep ++ rows /\ Forall2 (tells p g (own_values p lats [a; b; c])) (series name a b c rows) vs /\
    StronglySorted follows_on (now st name [a; b; c] :: vs) /\
    match l with
    | SMeas m :: _ => forall k, dget (ms_counts m) name = Some k -> c < k -> exists rest, vs = now st name [a; b; c] :: rest
    | _ => True
    end.
Proof.
  induction l as [|x l IH]; intros i st rep w st' rep' w' HL HC HN Ws Hr Hk F Sd Hl E.
  - apply ret_ok in E as [E ->]. injection E as -> ->. exists [], []. rewrite app_nil_r. split; [reflexivity|]. split; [constructor|]. split; [|exact I]. constructor; constructor.
  - assert (Ws' : forall s, In s l -> step_wf s) by (intros; apply Ws; now right).
    assert (Hr' : forall x k, requests l x k -> ns x k) by (intros y k (m0 & I0 & R); apply Hr; exists m0; split; [now right|exact R]).
    assert (Hk' : forall x k n p, requests l x k -> dget d x = Some (PDeg p) -> dget counts x = Some n -> k <= n).
    { intros y k n' p' (m0 & I0 & R). apply Hk. exists m0. split; [now right|exact R]. }
    rewrite run_cons in E. apply bind_ok in E as ([st1 rep1] & w1 & E1 & E2). cbn [fst snd] in E2. destruct x as [m|s|o]; cbn [sim_step fst snd] in E1.
    + apply meas_step_ok in E1 as (conds & rws & w2 & Ec & Ef & -> & ->).
      apply meas_groups with (P := fun kv g => measured e d L C st conds kv g /\ stamped i (st_elapsed st) kv g) in Ef as (gs & -> & Fg).
      2:{ intros [prm k] wa gr wb Hin Em. split; [|eapply measure_prm_stamp; exact Em]. cbn [fst snd] in Em. rewrite <- HL, <- HC.
          destruct (Ws (SMeas m) ltac:(now left)) as [Wc Wn]. assert (Rq : requests (SMeas m :: l) prm k) by (exists m; split; [now left|exact Hin]).
          destruct (dget d prm) as [[q|q]|] eqn:Hq.
          - destruct (F _ _ Hq) as (n' & _ & _ & _ & _ & B1 & _).
            eapply (measure_measured e d) with (m := m) (n := n') (ns := ns); eauto; try (rewrite HL, HC; assumption); try (rewrite HL, HC, HN; assumption).
            intros p' Hp. rewrite HN. split; [exact B1|]. eapply Hk; eauto.
          - eapply (measure_measured e d) with (m := m) (n := 0) (ns := ns); eauto; try (rewrite HL, HC; assumption); try (rewrite HL, HC, HN; assumption); rewrite Hq; discriminate.
          - eapply (measure_measured e d) with (m := m) (n := 0) (ns := ns); eauto; try (rewrite HL, HC; assumption); try (rewrite HL, HC, HN; assumption); rewrite Hq; discriminate. }
      cbn [app] in *. eapply IH in E2 as (rows & vs & R1 & R2 & R3 & _); auto. cbn [add_summary add_measurements rp_meas] in R1.
      destruct (Ws (SMeas m) ltac:(now left)) as [_ Wn].
      assert (T : forall k, In (name, k) (ms_counts m) -> pointwise L C k (lm_eqn (dp_own p)) g).
      { intros k Hin. apply Gp, Hr. exists m. split; [now left|exact Hin]. }
      exists (concat gs ++ rows). rewrite series_app.
      destruct (groups_tell e d L C st conds name p g a b c _ _ (ms_counts m) gs lats Wn Hd Ne T Ha Hb Hl Fg) as [(Z & Zk)|(k & r & K1 & K2 & Z & Tl)]; rewrite Z.
      * exists vs. split; [now rewrite R1, <- app_assoc|]. split; [exact R2|]. split; [exact R3|]. intros k Q Hck. specialize (Zk _ Q). lia.
      * exists (now st name [a; b; c] :: vs). split; [now rewrite R1, <- app_assoc|]. split; [constructor; auto|]. split; [|eauto].
        constructor; [exact R3|]. constructor; [intros Q; exact Q|]. inversion R3; auto.
    + subst L C counts. pose proof E1 as E1'. eapply stress_fails with (failed := failed) (l := a) (c := b) (k := c) in E1 as (F' & Sd' & Hl' & Hf); eauto; [|exact (Ws _ (or_introl eq_refl))|now apply (Nm _ _ Hd)|now apply (Nm _ _ Hd)].
      apply stress_step_ok in E1' as (conds & st2 & w2 & x & _ & _ & _ & _ & ->).
      eapply IH in E2 as (rows & vs & R1 & R2 & R3 & _); auto. cbn [add_summary rp_meas] in R1. exists rows, vs. split; [exact R1|]. split; [exact R2|]. split; [|exact I].
      inversion R3 as [|? ? R4 R5]; subst. constructor; [exact R4|]. revert R5. apply Forall_impl. unfold follows_on. auto.
    + apply ret_ok in E1 as [E1 ->]. injection E1 as -> ->. eapply IH in E2 as (rows & vs & R1 & R2 & R3 & _); auto. exists rows, vs. auto.
Qed.
End Run.

(** ** Simulations *)
Lemma simulate_fails e d l chps lots w st rep w' name (p : degprm V) n g failed a b c lats :
  device_wf d -> circuits_plain d -> regular_at d lots chps (needs d l) -> (forall s, In s l -> step_wf s) ->
  (forall q p, dget d q = Some (PDeg p) -> ~ In "init"%string (dkeys (dp_mechs p)) /\ ~ In "cond"%string (dkeys (dp_mechs p))) ->
  dget d name = Some (PDeg p) -> (forall k, needs d l name k -> pointwise lots chps k (lm_eqn (dp_own p)) g) -> dget e (name ++ "_instm") = None ->
  simulate e d l chps lots None w = (Ok (st, rep), w') -> dget (rp_counts rep) name = Some n -> a < lots -> b < chps -> c < n ->
  dget (st_lat st) name = Some lats -> breaks p g failed (own_values p lats [a; b; c]) ->
  exists st0 w0 vs, dev_init_state d (rp_counts rep) chps lots w = (Ok (st0, rp_counts rep), w0) /\ dget (st_lat st0) name = Some lats /\
    Forall2 (tells p g (own_values p lats [a; b; c])) (series name a b c (rp_meas rep)) vs /\
    StronglySorted (follows_on failed) (now st0 name [a; b; c] :: vs) /\
    match l with
    | SMeas m :: _ => forall k, dget (ms_counts m) name = Some k -> c < k -> exists rest, vs = now st0 name [a; b; c] :: rest
    | _ => True
    end.
Proof.
  intros W Pl Rg Ws Nm Hd Gp Ne E Hn Ha Hb Hc Hl Br.
  apply simulate_run in E as (st0 & rep0 & w0 & E & M0 & _ & C0 & L0 & T0 & _ & P0 & _ & st1 & Ei & -> & Q); auto.
  assert (Hg : forall q k, dget (rp_counts rep0) q = Some k <-> greatest (needs d l q) k) by (intros q k; rewrite Q; now apply needs_counts).
  assert (Hns : forall q k, dget (rp_counts rep0) q = Some k -> needs d l q k) by (intros q k Hq; now apply Hg in Hq as [Hq _]).
  assert (F := dev_init_shape _ _ _ _ _ _ _ _ _ W Rg Hns Ei).
  pose proof E as E'. apply run_same in E' as (Sf & _ & _ & Sr & _).
  assert (Hn0 : dget (rp_counts rep0) name = Some n) by congruence.
  assert (Hl0 : dget (st_lat st1) name = Some lats) by (destruct Sf as (Sf & _); cbn [set_elapsed st_lat] in Sf; congruence).
  eapply run_fails with (ns := needs d l) (failed := failed) (L := lots) (C := chps) (counts := rp_counts rep0) (lats := lats) in E as (rows & vs & R1 & R2 & R3 & R4); eauto.
  - rewrite M0 in R1. cbn [app] in R1. rewrite R1, Sr. exists st1, w0, vs. auto.
  - intros x k Hr. now left.
  - intros x k n' p' Hr _ Hx. apply Hg in Hx as [_ Hx]. apply Hx. now left.
  - left. now rewrite P0.
Qed.

(** Devices that were found failed stay failed. *)
Theorem failures_last e d l chps lots w st rep w' name (p : degprm V) n g failed a b c lats :
  device_wf d -> circuits_plain d -> regular_at d lots chps (needs d l) -> (forall s, In s l -> step_wf s) ->
  (forall q p, dget d q = Some (PDeg p) -> ~ In "init"%string (dkeys (dp_mechs p)) /\ ~ In "cond"%string (dkeys (dp_mechs p))) ->
  dget d name = Some (PDeg p) -> (forall k, needs d l name k -> pointwise lots chps k (lm_eqn (dp_own p)) g) -> dget e (name ++ "_instm") = None ->
  simulate e d l chps lots None w = (Ok (st, rep), w') -> dget (rp_counts rep) name = Some n -> a < lots -> b < chps -> c < n ->
  dget (st_lat st) name = Some lats -> breaks p g failed (own_values p lats [a; b; c]) ->
  StronglySorted (fun r r' => failed (r_val r) -> failed (r_val r')) (series name a b c (rp_meas rep)).
Proof.
  intros W Pl Rg Ws Nm Hd Gp Ne E Hn Ha Hb Hc Hl Br.
  destruct (simulate_fails _ _ _ _ _ _ _ _ _ _ _ _ _ _ _ _ _ _ W Pl Rg Ws Nm Hd Gp Ne E Hn Ha Hb Hc Hl Br) as (st0 & w0 & vs & _ & _ & F & S1 & _).
  inversion S1 as [|? ? S2 _]; subst. clear - F S2 Br. destruct Br as [_ Bi _ Bd]. induction F as [|r v rs vs T F IH]; constructor.
  - inversion S2; subst. auto.
  - inversion S2 as [|? ? _ S3]; subst. clear IH S2. revert S3. induction F as [|r' v' rs vs T' F IH]; intros S3; constructor.
    + inversion S3 as [|? ? Hv _]; subst. destruct T as (env & <- & T1 & T2 & ->), T' as (env' & <- & T1' & T2' & ->). intros X.
      apply Bi; [exact T2'|]. apply Hv. apply Bd; auto.
    + apply IH. now inversion S3.
Qed.
End L.
