(** Property C95: devices that fail stay failed, and the lifetimes that
    vts_paper_tddb_model_sensitivity.py draws are those of the readings. *)
From Coq Require Import QArith Lqa Lia Sorted.
From Verif Require Import M_Base M_Num M_Nd M_RandVar M_Latent M_Time M_TestSpec M_Device M_Report M_Env M_Sim M_Demo M_Toy M_Script
  S_TestSpec S_Device S_Sim S_Shape S_Total S_Reading S_Demo S_Series S_Export S_Script S_Fail
  L_Base L_Shape L_Shape2 L_Total L_Demo L_Demo3 L_Script2 L_Fail L_Fail2 L_Fail3 L_Total2 T_Sim T_Reading T_Total T_Demo M_Export.
Open Scope nat_scope.

Theorem C95_failures_last :
  forall V (O : NumOps V) (R : Rng V) (Ho : HashOrd) e (d : device V) l chps lots w st rep w' name p n g failed a b c lats,
  device_wf d -> circuits_plain d -> regular_at d lots chps (needs d l) -> (forall s, In s l -> step_wf s) ->
  (forall q p, dget d q = Some (PDeg p) -> ~ In "init"%string (dkeys (dp_mechs p)) /\ ~ In "cond"%string (dkeys (dp_mechs p))) ->
  dget d name = Some (PDeg p) -> (forall k, needs d l name k -> pointwise lots chps k (lm_eqn (dp_own p)) g) -> dget e (name ++ "_instm") = None ->
  simulate e d l chps lots None w = (Ok (st, rep), w') -> dget (rp_counts rep) name = Some n -> a < lots -> b < chps -> c < n ->
  dget (st_lat st) name = Some lats -> breaks p g failed (own_values p lats [a; b; c]) ->
  StronglySorted (fun r r' => failed (r_val r) -> failed (r_val r')) (series name a b c (rp_meas rep)).
Proof. intros V O R Ho. exact failures_last. Qed.
Print Assumptions C95_failures_last.

(** Every oxide works at first; the 105 readings of a transistor are ones followed by
    zeros. *)
Theorem C95_oxides_break_once :
  forall (R : Rng Q) (Ho : HashOrd) gen ppow n q w r w' c, numpy_accepts Q -> n <> 1 -> c < n ->
  single_test gen ppow q (field_steps n) w = (Ok r, w') ->
  exists ev, lifetime (map r_val (series "tddb" 0 0 c (rp_meas r))) ev.
Proof.
  intros R Ho gen ppow n q w r w' c Hn Hn1 Hc E. destruct (field_events gen Hn ppow q w r w' n Hn1 E) as (es & _ & Le & K).
  destruct (nth_error es c) as [ev|] eqn:Ee; [|apply nth_error_None in Ee; lia]. exists ev. exact (K c ev Ee).
Qed.
Print Assumptions C95_oxides_break_once.
(** The events of the drawing. *)
Theorem C95_field_drawing :
  forall (R : Rng Q) (Ho : HashOrd) gen here ppow fuel save fs ws, numpy_accepts Q -> 104 <= fuel ->
  exists rs ps fs', field_run gen ppow fuel ws = Ok rs /\
    field_script gen here ppow fuel None save false fs ws = (Draws ps, fs') /\
    stored_all (map (data_path here) field_files) save (field_reports rs) fs fs' /\
    map fst rs = [105 # 100; 1075 # 1000; 11 # 10; 1125 # 1000; 115 # 100]%Q /\
    Forall2 (fun x y => fst y = fst x /\ length (snd y) = 100 /\
      forall c ev, nth_error (snd y) c = Some ev -> lifetime (map r_val (series "tddb" 0 0 c (rp_meas (snd x)))) ev) rs ps.
Proof. intros R Ho gen here ppow fuel save fs ws Hn. exact (field_drawing gen here Hn ppow fuel save fs ws). Qed.
Print Assumptions C95_field_drawing.

(** ** Examples *)
#[local] Existing Instance hord_id.
#[local] Existing Instance ToyRng.
(** A lamp that shines with its brightness until it is struck. *)
Definition lamp_form : formula Q := FMap2 nadd (FMap2 nmul (FArg "init") (FMap2 nsub (FNum 1%Q) (FArg "struck"))) (FMap2 nmul (FNum 0%Q) (FArg "cond")).
Definition strike_form : formula Q := FMap2 (fun t b => b) (FArg "time") (FArg "bolt").
Definition lamp : degprm Q :=
  DegPrm (LMdl eqn_basic [("init_val"%string, ex_deter 5)]) (LMdl (eqn_const 0%Q) []) 0%Q
    [("struck"%string, Mech KFail (LMdl (eqn_of ["time"; "bolt"]%string strike_form) []) 0%Q (Some "h"%string))] (LMdl (eqn_of ["init"; "struck"; "cond"]%string lamp_form) []).
Definition lamps : device Q := [("lamp"%string, PDeg lamp)].
Definition look : step Q := SMeas (MeasSpec [("lamp"%string, 2)] [("bolt"%string, 0%Q)] "look").
Definition storm (b : Q) : step Q := SStrs (StrsSpec [("bolt"%string, b)] 3600000000 "storm").
Definition nights : list (step Q) := [look; storm 0%Q; look; storm 1%Q; look; storm 0%Q; look].
Definition lamp_out := Eval vm_compute in simulate [] lamps nights 1 1 None (fun _ => 0).
Lemma lamp_own : given_by (lm_eqn (dp_own lamp)) lamp_form.
Proof. split; [reflexivity|]. split; [reflexivity|]. split; [|reflexivity]. intros x. cbn. tauto. Qed.
Lemma strike_given : given_by (eqn_of ["time"; "bolt"]%string strike_form) strike_form.
Proof. split; [reflexivity|]. split; [reflexivity|]. split; [|reflexivity]. intros x. cbn. tauto. Qed.
Lemma lamps_wf : device_wf lamps /\ circuits_plain lamps /\ (forall s, In s nights -> step_wf s) /\ regular lamps.
Proof.
  split; [|split; [|split]].
  - split; [repeat constructor; intros []|]. intros name p Hp. cbn in Hp. destruct (String.eqb name "lamp"); [|discriminate Hp]. injection Hp as <-.
    repeat constructor; intros [].
  - intros p c q Hp. cbn in Hp. destruct (String.eqb p "lamp"); discriminate Hp.
  - intros s Hs. repeat (destruct Hs as [<-|Hs]; [repeat constructor; intros []|]). destruct Hs.
  - intros name p Hp. cbn in Hp. destruct (String.eqb name "lamp"); [|discriminate Hp]. injection Hp as <-. split; [exact basic_respects|].
    split; [apply respects_numeric, const_respects|]. split; [apply respects_follows; eapply formula_respects, lamp_own|].
    intros nm m Hm. cbn in Hm. destruct (String.eqb nm "struck"); [|discriminate Hm]. injection Hm as <-. eapply formula_numeric, strike_given.
Qed.
Lemma lamp_breaks own : breaks lamp (feval lamp_form) (fun v => v == 0)%Q own.
Proof.
  assert (F : forall env : string -> Q, (feval lamp_form env == env "init"%string * (1 - env "struck"%string))%Q).
  { intros env. cbn -[Qeq Qred]. rewrite !Qred_correct. ring. }
  split.
  - intros nm m Hm. cbn in Hm. destruct (String.eqb nm "struck"); [|discriminate Hm]. now injection Hm as <-.
  - intros env _ Z. rewrite F, Z. ring.
  - intros env env' _ K M Z. rewrite F in Z |- *. rewrite (K "init"%string) by (cbn; intuition discriminate).
    apply Qmult_integral in Z as [Z|Z]; [rewrite Z; ring|]. rewrite (M "struck"%string _ eq_refl); [rewrite Z; ring|].
    cbn. unfold Qeq_bool. apply not_true_is_false. intros T. assert (env "struck"%string == 0)%Q by (now apply Qeq_bool_iff). lra.
  - intros env _ M Z. rewrite F in Z. rewrite (M "struck"%string _ eq_refl) in Z. cbn in Z. lra.
Qed.
Example C95_failures_last_example :
  exists st rep w', simulate [] lamps nights 1 1 None (fun _ => 0) = (Ok (st, rep), w') /\
    map r_val (series "lamp" 0 0 1 (rp_meas rep)) = [5; 5; 0; 0]%Q /\
    StronglySorted (fun r r' => r_val r == 0 -> r_val r' == 0)%Q (series "lamp" 0 0 1 (rp_meas rep)).
Proof.
  assert (E : simulate [] lamps nights 1 1 None (fun _ => 0) = lamp_out) by (vm_compute; reflexivity).
  unfold lamp_out in E. eexists _, _, _. split; [exact E|]. split; [reflexivity|].
  destruct lamps_wf as (W & Ci & Sw & R).
  eapply (C95_failures_last _ _ _ _ _ _ _ _ _ _ _ _ _ _ lamp 2 (feval lamp_form) (fun v => v == 0)%Q 0 0 1 _ W Ci); try exact E; try exact Sw; try lia; try reflexivity.
  - apply regular_all, R.
  - intros q p Hp. cbn in Hp. destruct (String.eqb q "lamp"); [|discriminate Hp]. injection Hp as <-. cbn. intuition discriminate.
  - intros k _. apply formula_pointwise, lamp_own.
  - apply lamp_breaks.
Qed.
(** One of the hundred transistors of the first stress level. *)
Example C95_field_example :
  exists rs ps fs' q r es ev,
    field_run (fun i => i) (fun x _ => x) 104 (fun _ _ => 0) = Ok rs /\
    field_script (fun i => i) "demos/" (fun x _ => x) 104 None true false (fun _ => None) (fun _ _ => 0) = (Draws ps, fs') /\
    nth_error rs 0 = Some (q, r) /\ nth_error ps 0 = Some (q, es) /\ nth_error es 42 = Some ev /\
    lifetime (map r_val (series "tddb" 0 0 42 (rp_meas r))) ev.
Proof.
  destruct (C95_field_drawing _ _ (fun i => i) "demos/" (fun x _ => x) 104 true (fun _ => None) (fun _ _ => 0) toy_accepts (le_n _)) as (rs & ps & fs' & E1 & E2 & _ & E3 & F).
  destruct rs as [|[q r] rs]; [discriminate E3|]. inversion F as [|x y ? ps' (Y1 & Y2 & Y3) _]; subst. destruct y as [q' es]. cbn [fst snd] in *. subst q'.
  destruct (nth_error es 42) as [ev|] eqn:Ee; [|apply nth_error_None in Ee; lia].
  exists ((q, r) :: rs), ((q, es) :: ps'), fs', q, r, es, ev. do 2 (split; [assumption|]). do 2 (split; [reflexivity|]). split; [assumption|]. exact (Y3 42 ev Ee).
Qed.
(** What a lifetime says. *)
Example lifetime_example :
  lifetime (repeat 1%Q 3 ++ repeat 0%Q 102) (FailedAt 504%Q) /\ lifetime (repeat 1%Q 105) Censored /\ ~ lifetime (repeat 1%Q 105) (FailedAt 17640%Q).
Proof.
  split; [|split].
  - exists 3, 102. split; [reflexivity|]. split; [lia|]. split; [reflexivity|]. split; [discriminate|]. reflexivity.
  - exists 105, 0. split; [reflexivity|]. split; [lia|]. split; reflexivity.
  - intros (a & b & E & _ & L & Nb & _). destruct b; [congruence|]. assert (N := f_equal (fun l => nth_error l a) E). cbn beta in N.
    rewrite nth_error_app2, repeat_length, Nat.sub_diag in N by (rewrite repeat_length; lia). cbn [repeat nth_error] in N. apply nth_error_In, (repeat_spec 105 1%Q) in N. discriminate N.
Qed.
