(** The values in reports obey the instruments of the environment. *)
From Coq Require Import Reals Lra QArith Qabs Lqa Lia.
From Verif Require Import M_Base M_Num M_NumR M_Nd M_RandVar M_Latent M_Time M_TestSpec M_Device M_Report M_Env M_Sim M_Export
  S_Latent S_TestSpec S_Device S_Env S_EnvR S_Sim S_Report S_Time S_Export S_Obey
  L_Base L_Nd L_Time L_Device L_Env L_EnvR L_Sim L_Sim3 L_Report L_Export L_Export2.
Open Scope nat_scope.

Section G.
Context {V : Type} `{NumOps V} `{Rng V} `{HashOrd}.
Definition seen (e : env V) (r : row V) : Prop :=
  exists vals w ys w', measure_with e (r_param r) vals w = (Ok ys, w') /\ In (r_val r) ys.

Lemma zip_param prm stp t ds cs ls (vs : list V) : forall r, In r (zip_rows prm stp t ds cs ls vs) -> r_param r = prm.
Proof.
  revert cs ls vs. induction ds as [|x ds IH]; intros cs ls vs r Hr; [destruct cs, ls, vs; destruct Hr|].
  destruct cs as [|c cs]; [destruct Hr|]. destruct ls as [|l ls]; [destruct Hr|]. destruct vs as [|v vs]; [destruct Hr|].
  destruct Hr as [<-|Hr]; [reflexivity|]. eapply IH; eauto.
Qed.
Lemma format_param (v : pyval V) prm t i b rows : format_measurements v prm t i b = Ok rows -> forall r, In r rows -> r_param r = prm.
Proof.
  intros E r Hr. unfold format_measurements in E. apply rbind_ok in E as (a & _ & E). apply rbind_ok in E as ([[nl nc] nd] & _ & E).
  apply rbind_ok in E as (c & _ & E). injection E as <-. destruct b; [eapply zip_param; eauto|]. apply in_map_iff in Hr as (y & <- & _). reflexivity.
Qed.
Lemma measured_seen e d i conds sc st rep prm k w rows w' : measure_prm e d i conds sc st rep prm k w = (Ok rows, w') -> forall r, In r rows -> seen e r.
Proof.
  intros E r Hr. unfold measure_prm in E. apply bind_ok in E as (rs & w1 & E1 & E). apply bind_ok in E as (vals & w2 & E2 & E). apply ret_ok in E as [-> ->].
  assert (P : forall r, In r rs -> r_param r = prm).
  { destruct (dget (st_prm st) prm) as [cur|]; [destruct (dget d prm) as [[p|c]|]; try discriminate E1|destruct (dget d prm) as [[p|c]|]; try discriminate E1].
    - do 3 (apply bind_ok in E1 as (? & ? & _ & E1)). unfold lift in E1. injection E1 as E1 _. eapply format_param, E1.
    - do 3 (apply bind_ok in E1 as (? & ? & _ & E1)). unfold lift in E1. injection E1 as E1 _. eapply format_param, E1.
    - destruct (dmem sc prm); [|discriminate E1]. do 2 (apply bind_ok in E1 as (? & ? & _ & E1)). unfold lift in E1. injection E1 as E1 _. eapply format_param, E1. }
  apply in_map_iff in Hr as ([r0 v] & <- & Hv). cbn [fst snd r_param r_val]. unfold seen. cbn [r_param r_val]. rewrite (P r0) by (eapply in_combine_l; eauto).
  exists (map r_val rs), w1, vals, w2. split; [exact E2|]. eapply in_combine_r; eauto.
Qed.
Lemma run_seen e d i l st rep w st' rep' w' : run_steps e d i l st rep w = (Ok (st', rep'), w') ->
  (forall r, In r (rp_meas rep) -> seen e r) -> forall r, In r (rp_meas rep') -> seen e r.
Proof.
  intros E K. unfold run_steps in E. refine (foldM_inv (fun sr : simstate V * report V => forall r, In r (rp_meas (snd sr)) -> seen e r) (sim_step e d) _ (st, rep) _ _ _ _ K E).
  clear E K w w' st st' rep rep'. intros [st rep] [j s] w [st' rep'] w' _ K E. cbn [snd fst] in *. destruct s as [m|s|o]; cbn [sim_step fst snd] in E.
  - apply meas_step_ok in E as (conds & rows & w1 & _ & E & -> & ->). cbn [add_summary add_measurements rp_meas].
    intros r Hr. apply in_app_iff in Hr as [Hr|Hr]; auto. revert r Hr.
    refine (foldM_inv (fun acc => forall r, In r acc -> seen e r) _ _ _ _ _ _ _ _ E); [|intros r []].
    intros acc [q k] w2 acc' w3 _ Ka Ea. apply bind_ok in Ea as (rs & w4 & Ea & Er). apply ret_ok in Er as [-> ->].
    intros r Hr. apply in_app_iff in Hr as [Hr|Hr]; [auto|]. eapply measured_seen; eauto.
  - apply stress_step_ok in E. decompose [ex and] E. subst rep'. exact K.
  - apply ret_ok in E as [E _]. injection E as -> ->. exact K.
Qed.
Lemma simulate_seen e (d : device V) l C L init w st rep w' r : device_wf d -> simulate e d l C L init w = (Ok (st, rep), w') ->
  In r (rp_meas rep) -> seen e r.
Proof.
  intros W E. apply simulate_run in E as (st0 & rep0 & w0 & E & M0 & _); auto. eapply run_seen; eauto. rewrite M0. intros ? [].
Qed.

(** What an instrument does to one value *)
Lemma seen_shown e (r : row V) i : seen e r -> dget e (r_param r ++ "_instm") = Some (AInst i) ->
  exists vals w ys w', measure i vals w = (Ok ys, w') /\ In (r_val r) ys.
Proof.
  intros (vals & w & ys & w' & E & I) Hi. unfold measure_with in E. apply bind_ok in E as (f & w1 & Ef & E). unfold lift in Ef. injection Ef as Ef <-.
  unfold meas_instm in Ef. destruct (dmem e "meas_instm"); [discriminate Ef|]. rewrite Hi in Ef. injection Ef as <-. exists vals, w, ys, w'. auto.
Qed.
Lemma shown_can (i : instm V) vals w ys w' y : measure i vals w = (Ok ys, w') -> In y ys -> can_show i y.
Proof.
  intros E I. apply measure_ok in E as (Ln & es & _ & K). apply In_nth_error in I as (k & Ik).
  destruct (nth_error vals k) as [x|] eqn:Ex.
  - destruct (K k x Ex) as (x' & r & y' & _ & R & Lm & Iy). rewrite Ik in Iy. injection Iy as <-. exists x', r. auto.
  - apply nth_error_None in Ex. assert (k < length ys) by (apply nth_error_Some; congruence). lia.
Qed.
Theorem report_shown e (d : device V) l C L init w st rep w' r i : device_wf d -> simulate e d l C L init w = (Ok (st, rep), w') ->
  In r (rp_meas rep) -> dget e (r_param r ++ "_instm") = Some (AInst i) -> can_show i (r_val r).
Proof.
  intros W E Hr Hi. destruct (seen_shown e r i (simulate_seen _ _ _ _ _ _ _ _ _ _ _ W E Hr) Hi) as (vals & w1 & ys & w2 & Em & I).
  eapply shown_can; eauto.
Qed.
Theorem report_limits e (d : device V) l C L init w st rep w' r i lims : ordered V -> device_wf d -> simulate e d l C L init w = (Ok (st, rep), w') ->
  In r (rp_meas rep) -> dget e (r_param r ++ "_instm") = Some (AInst i) -> in_range i = Some lims -> nan_free lims ->
  nan (r_val r) \/ within lims (r_val r).
Proof.
  intros Or W E Hr Hi Hl Nf. destruct (seen_shown e r i (simulate_seen _ _ _ _ _ _ _ _ _ _ _ W E Hr) Hi) as (vals & w1 & ys & w2 & Em & I).
  apply In_nth_error in I as (k & Ik). exact (proj1 (measure_limits i lims vals w1 ys w2 Or Hl Nf Em k _ Ik)).
Qed.
Lemma clip_result l h (x : V) : clip l h x = x \/ l = Some (clip l h x) \/ h = Some (clip l h x).
Proof.
  unfold clip, clip_limits, drop_nan. destruct l as [l|], h as [h|]; cbn; repeat match goal with |- context [if ?b then _ else _] => destruct b; cbn end; auto.
Qed.
Lemma can_show_cases (i : instm V) y : can_show i y -> a_limit (in_range i) y \/ exists x, rounded (in_prec i) x y.
Proof.
  intros (x & r & R & Lm). unfold limited in Lm. destruct (in_range i) as [[l h]|] eqn:Er; [|subst; eauto].
  subst y. destruct (clip_result l h r) as [->|Q]; [eauto|]. left. exists l, h. auto.
Qed.
End G.

(** ** Significant figures *)
Section FigQ.
Open Scope Q_scope.
Lemma rint_near q : Qabs (inject_Z (q_rint q) - q) <= 1 # 2.
Proof.
  destruct q as [n d]. unfold q_rint. cbn [Qnum Qden]. assert (D := Z_div_mod_eq_full n (Z.pos d)). assert (B := Z.mod_pos_bound n (Z.pos d) eq_refl).
  set (f := (n / Z.pos d)%Z) in *. set (r := (n mod Z.pos d)%Z) in *.
  assert (G : forall z, (Z.abs (2 * (z * Z.pos d - n)) <= Z.pos d)%Z -> Qabs (inject_Z z - (n # d)) <= 1 # 2).
  { intros z Hz. unfold Qle, Qminus, Qplus, Qopp, Qabs, inject_Z. cbn [Qnum Qden]. rewrite Pos.mul_1_l. nia. }
  apply G. destruct (Z.compare_spec (2 * r) (Z.pos d)); [destruct (Z.even f)|..]; nia.
Qed.
Lemma figures_0 p : (0 < p)%Z -> figures p 0.
Proof. intros P. exists 0%Z, 0%Z. split; [apply Z.pow_pos_nonneg; lia|reflexivity]. Qed.
Lemma round_figures p x e : (0 < p)%Z -> q_flog10 x = Some e -> figures p (nround x (p - e - 1)%Z).
Proof.
  intros P E. assert (N : ~ x == 0). { intros Z. unfold q_flog10 in E. destruct (q_eqb_spec (Qabs x) 0) as [|K]; [discriminate E|]. apply K. rewrite Z. reflexivity. }
  destruct (flog_spec x N) as (e' & E' & L1 & L2). rewrite E in E'. injection E' as <-. clear E.
  cbn [nround QOps]. set (k := (p - e - 1)%Z). assert (Pk := p10_pos k). set (z := q_rint (x * q_pow10 k)). assert (R := rint_near (x * q_pow10 k)). fold z in R.
  assert (Vy : Qred (inject_Z z / q_pow10 k) == inject_Z z * q_pow10 (- k)).
  { rewrite Qred_correct. assert (I := p10_inv k). rewrite <- (Qmult_1_r (inject_Z z / q_pow10 k)), <- I. field. intros Z. rewrite Z in Pk. now apply Qlt_irrefl in Pk. }
  assert (Bz : (Z.abs z <= 10 ^ p)%Z).
  { assert (U : Qabs x * q_pow10 k < q_pow10 p). { replace p with (e + 1 + k)%Z by (unfold k; lia). rewrite <- p10_mul. apply Qmult_lt_r; auto. }
    rewrite (p10_Z p) in U by lia. assert (Qabs (x * q_pow10 k) == Qabs x * q_pow10 k) as A by (rewrite Qabs_Qmult, (Qabs_pos (q_pow10 k)); [reflexivity|now apply Qlt_le_weak]).
    assert (T := Qabs_triangle (inject_Z z - x * q_pow10 k) (x * q_pow10 k)). assert (inject_Z z - x * q_pow10 k + x * q_pow10 k == inject_Z z) as Q1 by ring. rewrite Q1 in T.
    assert (K : Qabs (inject_Z z) < inject_Z (10 ^ p) + (1 # 2)) by lra. revert K. unfold Qlt, Qplus, inject_Z, Qabs. cbn [Qnum Qden]. lia. }
  destruct (Z.eq_dec (Z.abs z) (10 ^ p)) as [Q|Q].
  - exists (Z.sgn z), (p - k)%Z. split; [assert (10 <= 10 ^ p)%Z by (rewrite <- (Z.pow_1_r 10) at 1; apply Z.pow_le_mono_r; lia); lia|].
    rewrite Vy. change (Qpower 10 (p - k)) with (q_pow10 (p - k)). replace (p - k)%Z with (p + - k)%Z by lia. rewrite <- p10_mul, (p10_Z p) by lia.
    rewrite Qmult_assoc. rewrite <- inject_Z_mult. replace (Z.sgn z * 10 ^ p)%Z with z by lia. reflexivity.
  - exists z, (- k)%Z. split; [lia|exact Vy].
Qed.
Lemma rounded_figures p x y : (0 < p)%Z -> rounded (Some p) x y -> figures p y.
Proof.
  intros P R. destruct p as [|p|p]; try lia. cbn [rounded] in R. destruct R as [(Z & ->)|[(I & _)|(_ & _ & e & E & ->)]].
  - cbn [neqb QOps] in Z. destruct (q_eqb_spec x n0) as [Q|]; [|discriminate Z]. destruct (figures_0 (Z.pos p) P) as (n & k & B & F). exists n, k. split; auto. rewrite Q. exact F.
  - discriminate I.
  - now apply round_figures.
Qed.
(** Numbers with few digits are multiples of 1e-10 unless they are small. *)
Lemma figures_multiple p y : figures p y -> (y == 0 \/ q_pow10 (p - 11) <= Qabs y) -> exists z, y == inject_Z z * (1 # 10 ^ 10).
Proof.
  intros (n & k & B & F) [Z|L]; [exists 0%Z; rewrite Z; reflexivity|].
  assert (T : forall j, (0 <= j)%Z -> q_pow10 (j - 10) == inject_Z (10 ^ j) * (1 # 10 ^ 10)).
  { intros j J. unfold Z.sub. rewrite <- p10_mul, p10_Z by auto. reflexivity. }
  destruct (Z_lt_le_dec k (-10)) as [K|K].
  - exfalso. rewrite F in L. rewrite Qabs_Qmult in L. change (Qpower 10 k) with (q_pow10 k) in L. rewrite (Qabs_pos (q_pow10 k)) in L by (apply Qlt_le_weak, p10_pos).
    assert (P0 : (0 <= p)%Z). { destruct (Z_lt_le_dec p 0) as [N|]; auto. rewrite Z.pow_neg_r in B by auto. lia. }
    assert (L2 : q_pow10 (p - 11) < q_pow10 p * q_pow10 k).
    { eapply Qle_lt_trans; [exact L|]. apply Qmult_lt_r; [apply p10_pos|]. rewrite p10_Z by auto. unfold Qlt, inject_Z, Qabs. cbn [Qnum Qden]. lia. }
    rewrite p10_mul in L2. apply Qlt_not_le in L2. apply L2.
    assert (G : forall a b, (a <= b)%Z -> q_pow10 a <= q_pow10 b).
    { intros a b Hab. replace b with (a + (b - a))%Z by lia. rewrite <- p10_mul. rewrite (p10_Z (b - a)) by lia. assert (Pa := p10_pos a).
      assert (1 <= inject_Z (10 ^ (b - a))) by (unfold Qle, inject_Z; cbn [Qnum Qden]; assert (0 < 10 ^ (b - a))%Z by (apply Z.pow_pos_nonneg; lia); lia). nra. }
    apply G. lia.
  - exists (n * 10 ^ (k + 10))%Z. rewrite F. change (Qpower 10 k) with (q_pow10 k). replace k with (k + 10 - 10)%Z at 1 by lia. rewrite T by lia. rewrite inject_Z_mult. ring.
Qed.
End FigQ.

Section FigR.
Open Scope R_scope.
Lemma sig_figures p x y : (0 < p)%Z -> sig_figs p x y -> figuresR p y.
Proof.
  intros P (S0 & S1). assert (T : (10 <= 10 ^ p)%Z) by (rewrite <- (Z.pow_1_r 10) at 1; apply Z.pow_le_mono_r; lia).
  destruct (Req_dec x 0) as [Z|N]; [exists 0%Z, 0%Z; split; [lia|rewrite (S0 Z); cbn; Lra.lra]|].
  destruct (S1 N) as (e & n & (M1 & M2) & Y & _ & D & _). cbv zeta in *. set (u := powerRZ 10 (e - p + 1)) in *.
  assert (U : 0 < u) by apply L_EnvR.p10_pos. assert (Pu : powerRZ 10 (e + 1) = IZR (10 ^ p) * u).
  { rewrite <- L_EnvR.p10_IZR by lia. unfold u. rewrite <- L_EnvR.p10_add. f_equal. lia. }
  assert (B : (Z.abs n <= 10 ^ p)%Z).
  { assert (K : Rabs (IZR n) * u <= Rabs x + u / 2). { rewrite <- (Rabs_pos_eq u) at 1 by Lra.lra. rewrite <- Rabs_mult, <- Y. replace y with (y - x + x) by ring. eapply Rle_trans; [apply Rabs_triang|]. Lra.lra. }
    assert (Rabs (IZR n) < IZR (10 ^ p) + 1 / 2).
    { apply (Rmult_lt_reg_r u); auto. rewrite Rmult_plus_distr_r, <- Pu. Lra.lra. }
    rewrite <- abs_IZR in H. apply Z.lt_succ_r. unfold Z.succ. apply lt_IZR. rewrite plus_IZR. Lra.lra. }
  destruct (Z.eq_dec (Z.abs n) (10 ^ p)) as [Q|Q].
  - exists (Z.sgn n), (e + 1)%Z. split; [lia|]. rewrite Pu, <- Rmult_assoc, <- mult_IZR, Y. do 2 f_equal. lia.
  - exists n, (e - p + 1)%Z. split; [lia|exact Y].
Qed.
Lemma rounded_figuresR p (x y : R) : (0 < p)%Z -> rounded (Some p) x y -> figuresR p y.
Proof.
  intros P R. apply (sig_figures p x); auto. destruct p as [|p|p]; try lia. cbn [rounded] in R.
  assert (G : y = reading (Z.pos p) x); [|rewrite G; now apply reading_sig].
  unfold reading. destruct R as [(Z & ->)|[(I & _)|(_ & _ & e & E & ->)]].
  - cbn [neqb ROps] in Z. assert (x = 0) as ->.
    { revert Z. unfold n0. cbn [nofQ ROps]. rewrite RMicromega.Q2R_0. intros Z. destruct (Raux.Req_bool_spec x 0); [assumption|discriminate Z]. }
    unfold r_flog10. rewrite Raux.Req_bool_true; auto.
  - discriminate I.
  - cbn [nflog10 ROps] in E. rewrite E. reflexivity.
Qed.
End FigR.

(** ** Saving *)
Section Save.
Context {R : Rng Q} {Ho : HashOrd}.
Theorem saved_exactly name desc e (d : device Q) l C L init w st rep w' z0 tu n :
  device_wf d -> plain_names l -> simulate e d l C L init w = (Ok (st, rep), w') ->
  match init with Some st => st_elapsed st | None => TD 0 end = TD z0 -> short_test z0 l -> rp_meas rep <> [] ->
  In (tu, n) documented_units -> n <> 86400000000%Z ->
  (forall r, In r (rp_meas rep) -> exists i p, dget e (r_param r ++ "_instm") = Some (AInst i) /\ in_prec i = Some p /\ (0 < p)%Z /\
     (forall y, a_limit (in_range i) y -> figures p y) /\
     (r_val r == 0 \/ (Qpower 10 (p - 11) <= Qabs (r_val r) /\ ordinary (r_val r)))%Q) ->
  exists j x rows, export_to_json (xreport_of name desc rep) tu = Ok j /\ load j = Ok x /\ x_meas x = Some rows /\
    Forall2 (row_rel (fun t t' => t' = t) (fun v v' => v' == v)%Q) (rp_meas rep) rows.
Proof.
  intros W Pn E Ei Sh Ne Hu Nd K. assert (T := simulated_timed name desc e d l C L init w st rep w' z0 W Pn E Ei Sh Ne).
  destruct T as (M & U & Rt & Sm & O). destruct (proj2 (unit_map_documented tu n) Hu) as (u & Eu & En).
  assert (Ud : u <> UDays) by (intros ->; apply Nd; now rewrite <- En).
  assert (Ch : chosen (xreport_of name desc rep) tu = tu) by (unfold chosen; destruct tu; reflexivity).
  destruct (reload_genN (fun v v' => v' = json_num v) (fun v => eq_refl) (fun t t' => t' = t) (fun t t' => t' = t) (xreport_of name desc rep) tu (rp_meas rep) (rp_sum rep) u)
    as (j & x & rows & sums & Ej & El & _ & _ & Ex & _ & F & _); auto.
  - now rewrite Ch.
  - intros r Hr. destruct (Rt r Hr) as (us & -> & B). exact (f_equal TD (back_exact u us B Ud)).
  - intros us B. now rewrite back_exact.
  - exists j, x, rows. split; [exact Ej|]. split; [exact El|]. split; [exact Ex|].
    assert (V : forall r, In r (rp_meas rep) -> (json_num (r_val r) == r_val r)%Q).
    { intros r Hr. destruct (K r Hr) as (i & p & Hi & Hp & P & Lm & B). assert (Sw := report_shown _ _ _ _ _ _ _ _ _ _ _ _ W E Hr Hi).
      assert (Fg : figures p (r_val r)). { destruct (can_show_cases i _ Sw) as [A|(y & A)]; [auto|]. rewrite Hp in A. now apply (rounded_figures p y). }
      assert (Or : ordinary (r_val r)). { destruct B as [Z|B]; [|apply B]. split; [now left|]. rewrite Z. discriminate. }
      destruct (figures_multiple p (r_val r) Fg) as (z & Z); [destruct B as [B|[B _]]; auto|]. exact (json_multiple _ z Or Z). }
    clear - F V. induction F as [|r r' l l' (A1 & A2 & A3 & A4 & A5 & A6 & A7) F IH]; constructor; [|apply IH; intros; apply V; now right].
    repeat (split; [assumption|]). rewrite A7. apply V. now left.
Qed.
End Save.
