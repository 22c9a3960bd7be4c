(** Property C96: what a report shows, the instruments can show. *)
From Coq Require Import Reals Lra QArith Qabs Lia.
From Flocq Require Import Core.
From Verif Require Import M_Base M_Num M_NumR M_Nd M_RandVar M_Latent M_Time M_TestSpec M_Device M_Report M_Env M_Sim M_Toy M_Export
  S_Latent S_TestSpec S_Device S_Env S_Sim S_Report S_Time S_Export S_Series S_Obey
  S_Total L_Base L_Env L_EnvR L_DeviceR L_Shape2 L_Total L_Total2 L_Demo L_Demo2 L_Const L_Obey T_Sim T_History T_Const T_Grow T_Fail.
Open Scope nat_scope.

(** Every value in a report is some value rounded and limited by the instrument of its
    parameter, if there is one. *)
Theorem C96_read_by_the_instrument :
  forall V (O : NumOps V) (R : Rng V) (Ho : HashOrd) e (d : device V) l C L init w st rep w' r i,
  device_wf d -> simulate e d l C L init w = (Ok (st, rep), w') -> In r (rp_meas rep) ->
  dget e (r_param r ++ "_instm") = Some (AInst i) -> can_show i (r_val r).
Proof. intros V O R Ho. exact report_shown. Qed.
Print Assumptions C96_read_by_the_instrument.

Theorem C96_within_limits :
  forall V (O : NumOps V) (R : Rng V) (Ho : HashOrd) e (d : device V) l C L init w st rep w' r i lims,
  ordered V -> device_wf d -> simulate e d l C L init w = (Ok (st, rep), w') -> In r (rp_meas rep) ->
  dget e (r_param r ++ "_instm") = Some (AInst i) -> in_range i = Some lims -> nan_free lims ->
  nan (r_val r) \/ within lims (r_val r).
Proof. intros V O R Ho. exact report_limits. Qed.
Print Assumptions C96_within_limits.

(** With a precision of [p] figures every value has at most [p] decimal digits or is a
    limit of the instrument. *)
Theorem C96_figures :
  forall (R0 : Rng R) (Ho : HashOrd) e (d : device R) l C L init w st rep w' r i p,
  device_wf d -> simulate e d l C L init w = (Ok (st, rep), w') -> In r (rp_meas rep) ->
  dget e (r_param r ++ "_instm") = Some (AInst i) -> in_prec i = Some p -> (0 < p)%Z ->
  a_limit (in_range i) (r_val r) \/ figuresR p (r_val r).
Proof.
  intros R0 Ho e d l C L init w st rep w' r i p W E Hr Hi Hp P. destruct (can_show_cases i _ (report_shown _ _ _ _ _ _ _ _ _ _ _ _ W E Hr Hi)) as [A|(x & A)]; [now left|].
  right. rewrite Hp in A. now apply (rounded_figuresR p x).
Qed.
Print Assumptions C96_figures.

(** Nothing is lost by saving what instruments with [p] figures have read, down to
    10^(p - 11). *)
Theorem C96_saved_exactly :
  forall (R : Rng Q) (Ho : HashOrd) name desc e (d : device Q) l C L init w st rep w' z0 tu n,
  device_wf d -> plain_names l -> simulate e d l C L init w = (Ok (st, rep), w') ->
  match init with Some st => st_elapsed st | None => TD 0 end = TD z0 -> short_test z0 l -> rp_meas rep <> [] ->
  In (tu, n) documented_units -> n <> 86400000000%Z ->
  (forall r, In r (rp_meas rep) -> exists i p, dget e (r_param r ++ "_instm") = Some (AInst i) /\ in_prec i = Some p /\ (0 < p)%Z /\
     (forall y, a_limit (in_range i) y -> figures p y) /\
     (r_val r == 0 \/ (Qpower 10 (p - 11) <= Qabs (r_val r) /\ ordinary (r_val r)))%Q) ->
  exists j x rows, export_to_json (xreport_of name desc rep) tu = Ok j /\ load j = Ok x /\ x_meas x = Some rows /\
    Forall2 (row_rel (fun t t' => t' = t) (fun v v' => v' == v)%Q) (rp_meas rep) rows.
Proof. intros R Ho. exact saved_exactly. Qed.
Print Assumptions C96_saved_exactly.

(** ** Examples *)
#[local] Existing Instance hord_id.
#[local] Existing Instance ToyRng.
(** The lamps of T_Fail.v, with a brightness of 22/7, read to three figures between 1/10
    and 4. *)
Definition bright : degprm Q := DegPrm (LMdl eqn_basic [("init_val"%string, ex_deter (22 # 7))]) (dp_cond lamp) 0%Q (dp_mechs lamp) (dp_own lamp).
Definition brights : device Q := [("lamp"%string, PDeg bright)].
Definition meter : instm Q := Instm (Some "lamp"%string) (Some 3%Z) None (Some (Some (1 # 10)%Q, Some 4%Q)).
Definition bench : env Q := [("lamp_instm"%string, AInst meter)].
Definition read_out : res (simstate Q * report Q) * world := Eval vm_compute in simulate bench brights nights 1 1 None (fun _ => 0).
Definition read_rep : report Q := Eval vm_compute in match fst read_out with Ok r => snd r | Err _ => report_init [] 0 0 end.
Lemma bright_wf : device_wf brights.
Proof.
  split; [repeat constructor; intros []|]. intros name p Hp. cbn in Hp. destruct (String.eqb name "lamp"); [|discriminate Hp]. injection Hp as <-. repeat constructor; intros [].
Qed.
Lemma read_ok : exists st w', simulate bench brights nights 1 1 None (fun _ => 0) = (Ok (st, read_rep), w').
Proof. eexists _, _. transitivity read_out; [vm_compute; reflexivity|reflexivity]. Qed.
Lemma read_rows r : In r (rp_meas read_rep) -> r_param r = "lamp"%string /\ In (r_val r) [157 # 50; 1 # 10]%Q.
Proof. intros Hr. cbn [read_rep rp_meas In] in Hr. repeat (destruct Hr as [<-|Hr]; [split; [reflexivity|cbn; auto]|]). destruct Hr. Qed.
Example C96_lamps_example : exists st w',
  simulate bench brights nights 1 1 None (fun _ => 0) = (Ok (st, read_rep), w') /\
  map r_val (series "lamp" 0 0 1 (rp_meas read_rep)) = [157 # 50; 157 # 50; 1 # 10; 1 # 10]%Q /\
  (forall r, In r (rp_meas read_rep) -> can_show meter (r_val r) /\ (nan (r_val r) \/ within (Some (1 # 10), Some 4)%Q (r_val r))) /\
  exists j x rows, export_to_json (xreport_of "lamps" "three storms" read_rep) None = Ok j /\ load j = Ok x /\ x_meas x = Some rows /\
    Forall2 (row_rel (fun t t' => t' = t) (fun v v' => v' == v)%Q) (rp_meas read_rep) rows.
Proof.
  destruct read_ok as (st & w' & E). exists st, w'. split; [exact E|]. split; [reflexivity|]. split.
  - intros r Hr. destruct (read_rows r Hr) as [Hn Hv].
    assert (Hi : dget bench (r_param r ++ "_instm") = Some (AInst meter)) by (rewrite Hn; reflexivity).
    split; [exact (C96_read_by_the_instrument _ _ _ _ _ _ _ _ _ _ _ _ _ _ _ _ bright_wf E Hr Hi)|].
    apply (C96_within_limits _ _ _ _ _ _ _ _ _ _ _ _ _ _ r meter (Some (1 # 10), Some 4)%Q ordered_Q bright_wf E Hr Hi eq_refl).
    split; intros y Q; injection Q as <-; discriminate.
  - apply (C96_saved_exactly _ _ "lamps" "three storms" bench brights nights 1 1 None (fun _ => 0) st read_rep w' 0%Z None 3600000000%Z bright_wf).
    + intros s c Hs Hc. repeat (destruct Hs as [<-|Hs]; [destruct Hc as [<-|[]]; cbn; intuition discriminate|]). destruct Hs.
    + exact E.
    + reflexivity.
    + split; [lia|]. split; [|vm_compute; reflexivity]. intros s Hs. cbn [nights In] in Hs.
      repeat (destruct Hs as [Hs|Hs]; [try discriminate Hs; injection Hs as <-; vm_compute; discriminate|]). destruct Hs.
    + discriminate.
    + cbn; auto 11.
    + discriminate.
    + intros r Hr. destruct (read_rows r Hr) as [Hn Hv]. exists meter, 3%Z. split; [rewrite Hn; reflexivity|]. split; [reflexivity|]. split; [lia|]. split.
      * intros y (lo & hi & Q & [->| ->]); injection Q as Q1 Q2; subst; [exists 1%Z, (-1)%Z|exists 4%Z, 0%Z]; (split; reflexivity).
      * right. destruct Hv as [<-|[<-|[]]]; (split; [vm_compute; discriminate|split; [right; vm_compute; discriminate|vm_compute; discriminate]]).
Qed.
(** A reading of 1.2345e-7 to five figures would lose its last digit. *)
Example C96_small_readings : figures 5 (12345 # 10 ^ 11)%Q /\ ~ (exists z, (12345 # 10 ^ 11) == inject_Z z * (1 # 10 ^ 10))%Q.
Proof.
  split; [exists 12345%Z, (-11)%Z; split; reflexivity|]. intros (z & Z). unfold Qeq, inject_Z, Qmult in Z. cbn [Qnum Qden] in Z. lia.
Qed.
(** Over the reals, in any random state. *)
Lemma digits_R : has_digits R.
Proof. intros x Nx _. destruct (flog10_magnitude x) as (k & K & _); [|cbn [nflog10 ROps]; rewrite K; discriminate].
  intros ->. rewrite n0_R in Nx. cbn [neqb ROps] in Nx. rewrite Req_bool_true in Nx by reflexivity. discriminate. Qed.
Definition gauge : instm R := Instm (Some "p"%string) (Some 3%Z) None None.
Example C96_figures_example : forall (R0 : Rng R) w, exists i st rep w',
  simulate [("p_instm"%string, AInst gauge)] (q_dev i) r_steps2 1 1 None w = (Ok (st, rep), w') /\ length (rp_meas rep) = 2 /\
  forall r, In r (rp_meas rep) -> r_param r = "p"%string -> figuresR 3 (r_val r).
Proof.
  intros R0 w. destruct (deter_total (V := R) 7%Q) as (i & _ & Oi).
  destruct (q_runs R0 [("p_instm"%string, AInst gauge)] i w) as (st & rep & w' & E & _ & Ln).
  - split; [|split; [|reflexivity]].
    + intros n a Q. cbn [dget] in Q. destruct (String.eqb_spec (n ++ "_var") "p_instm") as [A|]; [|discriminate Q]. exfalso. do 8 (destruct n; [discriminate A|]). discriminate A.
    + intros n a Q. cbn [dget] in Q. destruct (String.eqb (n ++ "_instm") "p_instm"); [|discriminate Q]. injection Q as <-. exists gauge. split; auto. intros _. split; [discriminate|]. right; right. exact digits_R.
  - exact Oi.
  - exists i, st, rep, w'. split; [exact E|]. split; [exact Ln|]. intros r Hr Hp.
    assert (Hi : dget [("p_instm"%string, AInst gauge)] (r_param r ++ "_instm") = Some (AInst gauge)) by (rewrite Hp; reflexivity).
    destruct (C96_figures _ _ _ _ _ _ _ _ _ _ _ _ r gauge 3 (q_wf i) E Hr Hi eq_refl ltac:(lia)) as [(l & h & Q & _)|F]; [discriminate Q|exact F].
Qed.
