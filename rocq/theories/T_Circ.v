(** Property C81: the equation of a circuit parameter needs equal numbers of samples. *)
From Coq Require Import QArith Lia.
From Verif Require Import M_Base M_Num M_Nd M_RandVar M_Latent M_Time M_TestSpec M_Device M_Report M_Env M_Sim M_Toy
  S_TestSpec S_Device S_Env S_Sim S_Shape S_Total S_Circ L_Base L_Shape L_Shape2 L_Total2 L_Circ T_Sim T_Shape.
Open Scope nat_scope.

(** A simulation succeeds only if, in every measurement of a circuit parameter, any two
    arrays that its equation uses have equally many values per chip, or one of them
    has a single one. *)
Theorem C81_counts_agree :
  forall V (O : NumOps V) (R : Rng V) (Ho : HashOrd) (e : env V) (d : device V) l chps lots w st' rep' w' q c f m k x y n n',
  device_wf d -> regular d -> circuits_plain d -> (forall s, In s l -> step_wf s) ->
  (forall q p, dget d q = Some (PDeg p) -> ~ In "init"%string (dkeys (dp_mechs p)) /\ ~ In "cond"%string (dkeys (dp_mechs p))) ->
  simulate e d l chps lots None w = (Ok (st', rep'), w') ->
  dget d q = Some (PCirc c) -> given_by (lm_eqn c) f ->
  In (SMeas m) l -> In (q, k) (ms_counts m) -> In x (fnames f) -> In y (fnames f) ->
  comes_with d l m q k c x n -> comes_with d l m q k c y n' -> combinable n n'.
Proof. intros V O R Ho. exact counts_agree. Qed.
Print Assumptions C81_counts_agree.

(** A circuit parameter that depends on a condition and on a degraded parameter of
    which another measurement wants more samples cannot be measured; nor, for the same
    reason, can one with a latent variable be measured with fewer samples than at
    another time. *)
Theorem C81_larger_request_elsewhere :
  forall V (O : NumOps V) (R : Rng V) (Ho : HashOrd) (e : env V) (d : device V) l chps lots w q c f m k x p y n,
  device_wf d -> regular d -> circuits_plain d -> (forall s, In s l -> step_wf s) ->
  (forall q p, dget d q = Some (PDeg p) -> ~ In "init"%string (dkeys (dp_mechs p)) /\ ~ In "cond"%string (dkeys (dp_mechs p))) ->
  dget d q = Some (PCirc c) -> given_by (lm_eqn c) f ->
  In (SMeas m) l -> In (q, k) (ms_counts m) -> In x (fnames f) -> In y (fnames f) ->
  ~ In y (dkeys (lm_vars c)) -> In y (dkeys (ms_conds m)) -> k <> 1 -> n <> k -> n <> 1 ->
  (In x (dkeys (lm_vars c)) /\ greatest (needs d l q) n \/
   ~ In x (dkeys (lm_vars c)) /\ ~ In x (dkeys (ms_conds m)) /\ dget d x = Some (PDeg p) /\ lm_vars (dp_init p) <> [] /\
   greatest (needs d l x) n) ->
  forall r w', simulate e d l chps lots None w <> (Ok r, w').
Proof.
  intros V O R Ho e d l chps lots w q c f m k x p y n Wd Rg Cp Ws Pn Hq Gv Hm Hk Hx Hy Ny Hc K1 N1 N2 Hn [st rep] w' E.
  assert (Cx : comes_with d l m q k c x n) by (destruct Hn as [[A B]|(A & B & C & D & F)]; [now apply cw_latent|now apply cw_parameter with (p := p)]).
  assert (Cy : comes_with d l m q k c y k) by now apply cw_condition.
  destruct (counts_agree e d l chps lots w st rep w' q c f m k x y n k Wd Rg Cp Ws Pn E Hq Gv Hm Hk Hx Hy Cx Cy) as [Q|[Q|Q]]; auto.
Qed.
Print Assumptions C81_larger_request_elsewhere.

(** The exception is the ValueError of the failed broadcast. *)
Theorem C81_value_error :
  forall V (O : NumOps V) (c : lmdl V) f k conds prms lats L C x y v v' n n' w,
  given_by (lm_eqn c) f ->
  (forall u, In u (fnames f) -> exists a, first_of [lats; conds; prms] u = Some a /\
     ((exists z, a = PNum z) \/ exists j, shaped L C j a)) ->
  In x (fnames f) -> In y (fnames f) ->
  first_of [lats; conds; prms] x = Some v -> shaped L C n v -> first_of [lats; conds; prms] y = Some v' -> shaped L C n' v' ->
  ~ combinable n n' ->
  circ_vals c k conds prms lats w = (Err ValueError, w).
Proof. intros V O. exact circ_raises. Qed.
Print Assumptions C81_value_error.

(** The frequency depends on the threshold voltage and on the temperature at which it
    is measured. *)
#[local] Existing Instance hord_id.
Definition ex81_freq : lmdl Q := LMdl (Eqn ["vth"; "temp"]%string [] None
  (fun a => lift (rbind (dgetE a "vth") (fun v => rbind (dgetE a "temp") (fun t => pmap2 nadd v t))))) [].
Definition ex81_dev : device Q := [("vth"%string, PDeg ex_vth); ("freq"%string, PCirc ex81_freq)].
Definition ex81_meas (a b : nat) : meas_spec Q := MeasSpec [("vth"%string, a); ("freq"%string, b)] [("temp"%string, 300%Q)] "m1".
Definition ex81_only (b : nat) : meas_spec Q := MeasSpec [("freq"%string, b)] [("temp"%string, 300%Q)] "m1".

Lemma ex81_wf : device_wf ex81_dev.
Proof.
  split.
  - repeat constructor; cbn; intuition discriminate.
  - intros name p Hp. unfold ex81_dev in Hp. cbn [dget] in Hp. destruct (String.eqb name "vth").
    + injection Hp as <-. repeat constructor. intros [].
    + destruct (String.eqb name "freq"); discriminate.
Qed.
Lemma ex81_regular : regular ex81_dev.
Proof.
  intros name p Hp. apply (ex_regular name p). unfold ex81_dev, ex_dev in *. cbn [dget] in *.
  destruct (String.eqb name "vth"); auto. destruct (String.eqb name "freq"); discriminate.
Qed.
Lemma ex81_plain : circuits_plain ex81_dev.
Proof.
  intros p c q Hp Hq Ha. unfold ex81_dev in Hp. cbn [dget] in Hp. destruct (String.eqb p "vth"); [discriminate|].
  destruct (String.eqb p "freq"); [|discriminate]. injection Hp as <-. cbn in Hq, Ha.
  destruct Hq as [<-|[<-|[]]]; [eexists; reflexivity|]. destruct Ha as [Q|[Q|[]]]; discriminate Q.
Qed.
Lemma ex81_given : given_by (lm_eqn ex81_freq) (FMap2 nadd (FArg "vth") (FArg "temp")).
Proof. repeat split; cbn; auto. Qed.
Lemma ex81_names q p : dget ex81_dev q = Some (PDeg p) -> ~ In "init"%string (dkeys (dp_mechs p)) /\ ~ In "cond"%string (dkeys (dp_mechs p)).
Proof.
  unfold ex81_dev. cbn [dget]. destruct (String.eqb q "vth"); [|destruct (String.eqb q "freq"); discriminate].
  intros [= <-]. split; intros [Q|[]]; discriminate Q.
Qed.

(** Two samples of both can be measured; three threshold voltages and two frequencies
    cannot, and neither can three frequencies at first and two later. *)
Example C81_example :
  (exists r w', simulate ex_env ex81_dev [SMeas (ex81_meas 2 2)] 2 1 None ex_w = (Ok r, w')) /\
  (forall chps lots w r w', simulate ex_env ex81_dev [SMeas (ex81_meas 3 2)] chps lots None w <> (Ok r, w')) /\
  (exists w', simulate ex_env ex81_dev [SMeas (ex81_meas 3 2)] 2 1 None ex_w = (Err ValueError, w')) /\
  (exists w', simulate ex_env ex81_dev [SMeas (ex81_only 3); SMeas (ex81_only 2)] 2 1 None ex_w = (Err ValueError, w')).
Proof.
  split; [vm_compute; do 2 eexists; reflexivity|]. split; [|split; vm_compute; eexists; reflexivity].
  intros chps lots w r w'.
  refine (C81_larger_request_elsewhere Q _ _ _ ex_env ex81_dev [SMeas (ex81_meas 3 2)] chps lots w "freq" ex81_freq _ (ex81_meas 3 2) 2 "vth" ex_vth "temp" 3
    ex81_wf ex81_regular ex81_plain _ ex81_names _ ex81_given _ _ _ _ _ _ _ _ _ _ r w').
  - intros s [<-|[]]. split; repeat constructor; cbn; intuition discriminate.
  - reflexivity.
  - now left.
  - cbn. auto.
  - cbn. auto.
  - cbn. auto.
  - intros [].
  - cbn. auto.
  - lia.
  - lia.
  - lia.
  - right. split; [intros []|]. split; [intros [Q|[]]; discriminate Q|]. split; [reflexivity|]. split; [discriminate|]. split.
    + left. exists (ex81_meas 3 2). split; cbn; auto.
    + intros j [(m & Hm & Hj)|(p & c & (m & Hm & Hj) & _)]; destruct Hm as [[= <-]|[]]; destruct Hj as [Q|[Q|[]]]; inversion Q; lia.
Qed.

(** One chip: three threshold voltages, two temperatures. *)
Example C81_value_error_example :
  circ_vals ex81_freq 2 [("temp"%string, PArr (Nd [1; 1; 2] [300; 301]%Q))] [("vth"%string, PArr (Nd [1; 1; 3] [1; 2; 3]%Q))] [] ex_w = (Err ValueError, ex_w).
Proof.
  refine (C81_value_error Q _ ex81_freq _ 2 [("temp"%string, PArr (Nd [1; 1; 2] [300; 301]%Q))] [("vth"%string, PArr (Nd [1; 1; 3] [1; 2; 3]%Q))] [] 1 1
    "vth" "temp" _ _ 3 2 ex_w ex81_given _ _ _ eq_refl _ eq_refl _ _).
  - intros u [<-|[<-|[]]]; eexists; (split; [reflexivity|]); right; eexists; eexists; (split; [reflexivity|]); split; reflexivity.
  - cbn. auto.
  - cbn. auto.
  - eexists. split; [reflexivity|]. split; reflexivity.
  - eexists. split; [reflexivity|]. split; reflexivity.
  - intros [Q|[Q|Q]]; discriminate Q.
Qed.
