(** Properties C74-C77: the demonstration scripts pass their own checks.  Each script,
    run with --test, ends with status 0 if its checks hold.  They hold whatever random
    numbers are drawn, whatever functions np.exp and ** are and in whatever order sets
    are iterated.  [numpy_accepts] says that numpy accepts the parameters of the
    distributions the scripts use, [literals] that equations such as
    25 + 273.15 == 298.15 hold of the numbers used. *)
From Coq Require Import QArith Lia.
From Verif Require Import M_Base M_Num M_NumB M_Nd M_RandVar M_Latent M_Time M_TestSpec M_Device M_Report M_Env M_Sim M_Demo M_Toy
  S_Total S_Demo L_Base L_Demo L_Demo2 L_Demo3 L_Demo4 T_Sim T_Total.
Open Scope nat_scope.

(** ** demos/basic_use.py *)
Theorem C74_basic_use :
  forall V (O : NumOps V) (R : Rng V) (Ho : HashOrd) gen w, numpy_accepts V -> literals V ->
  exists w', basic_entry gen w = (Ok 0%Z, w').
Proof. intros V O R Ho gen w Hn Hl. exact (basic_passes gen Hn Hl w). Qed.
Print Assumptions C74_basic_use.

(** The equations between literals hold of rationals and of binary64 floats. *)
Lemma literals_Q : literals Q.
Proof. split; try split; try reflexivity. intros h [<-|[<-|[<-|[]]]]; reflexivity. Qed.
Theorem C74_literals_binary64 : literals b64t.
Proof. constructor; [vm_compute; reflexivity|vm_compute; reflexivity|split; vm_compute; reflexivity|]. intros h [<-|[<-|[<-|[]]]]; vm_compute; reflexivity. Qed.
Print Assumptions C74_literals_binary64.

Lemma toy_accepts : numpy_accepts Q.
Proof. split; [|split; reflexivity|reflexivity]. intros mu sigma Hs. apply Qle_bool_iff. change (0 <= Qred sigma)%Q. now rewrite Qred_correct. Qed.

(** The script with binary64 floats and a generator that always draws 1. *)
#[local] Existing Instance hord_id.
#[local] Instance one_rng : Rng b64t := {| rdraw := fun _ s => (b_of_Z 1, S s); rvalid := fun _ => true |}.
Lemma one_accepts : numpy_accepts b64t.
Proof. split; [reflexivity|split; vm_compute; reflexivity|reflexivity]. Qed.
Example C74_ex : exists w', basic_entry (V := b64t) (fun i => i) (fun _ => 0) = (Ok 0%Z, w').
Proof. exact (C74_basic_use b64t _ _ _ _ _ one_accepts C74_literals_binary64). Qed.
(** ** demos/riverbed_erosion.py *)

(** The loop that builds the test needs ten rounds; the instrument rounds to three
    digits, which presupposes that there are no NaNs. *)
Theorem C75_riverbed_erosion :
  forall V (O : NumOps V) (R : Rng V) (Ho : HashOrd) gen fuel w, numpy_accepts V -> literals V -> has_digits V -> 10 <= fuel ->
  exists w', river_entry gen fuel w = (Ok 0%Z, w').
Proof. intros V O R Ho gen fuel w Hn Hl Hd Hf. exact (river_passes gen Hn Hl fuel w Hd Hf). Qed.
Print Assumptions C75_riverbed_erosion.
Example C75_ex : exists w', river_entry (V := Q) (fun i => i) 10 (fun _ => 0) = (Ok 0%Z, w').
Proof. exact (C75_riverbed_erosion Q _ _ _ _ _ _ toy_accepts literals_Q digits_Q (le_n _)). Qed.

(** ** demos/vts_paper_presilicon_variability.py *)
Theorem C76_presilicon_variability :
  forall V (O : NumOps V) (R : Rng V) (Ho : HashOrd) gen pexp ppow fuel w, numpy_accepts V -> literals V -> 20 <= fuel ->
  exists w', silicon_entry gen pexp ppow fuel w = (Ok 0%Z, w').
Proof. intros V O R Ho gen pexp ppow fuel w Hn Hl Hf. exact (silicon_passes gen pexp ppow Hn Hl fuel w Hf). Qed.
Print Assumptions C76_presilicon_variability.
Example C76_ex : exists w', silicon_entry (V := b64t) (fun i => i) (fun x => x) nmul 20 (fun _ => 0) = (Ok 0%Z, w').
Proof. exact (C76_presilicon_variability b64t _ _ _ _ _ _ _ _ one_accepts C74_literals_binary64 (le_n _)). Qed.

(** ** demos/vts_paper_tddb_model_sensitivity.py *)

(** Every simulation runs in a process of its own; [ws] gives the states of their
    generators. *)
Theorem C77_tddb_model_sensitivity :
  forall V (O : NumOps V) (R : Rng V) (Ho : HashOrd) gen ppow fuel ws, numpy_accepts V -> literals V -> 104 <= fuel ->
  field_entry gen ppow fuel ws = Ok 0%Z.
Proof. intros V O R Ho gen ppow fuel ws Hn Hl Hf. exact (field_passes gen ppow Hn Hl fuel ws Hf). Qed.
Print Assumptions C77_tddb_model_sensitivity.
Example C77_ex : field_entry (V := b64t) (fun i => i) nmul 104 (fun _ _ => 0) = Ok 0%Z.
Proof. exact (C77_tddb_model_sensitivity b64t _ _ _ _ _ _ _ one_accepts C74_literals_binary64 (le_n _)). Qed.

(** The number of samples can be changed (the script suggests 1000): every number but
    one works. *)
Theorem C77_other_numbers_of_samples :
  forall V (O : NumOps V) (R : Rng V) (Ho : HashOrd) gen ppow n fuel, numpy_accepts V -> n <> 1 -> 104 <= fuel ->
  exists l, field_test n fuel = Ok l /\
    forall q w, exists r w', single_test gen ppow q l w = (Ok r, w') /\ length (rp_meas r) = 105 * n /\ dget (rp_counts r) "tddb" = Some n.
Proof.
  intros V O R Ho gen ppow n fuel Hn Hne Hf. exists (field_steps n). split; [now apply field_test_steps|].
  intros q w. destruct (field_single gen ppow Hn n q w Hne) as (r & w' & E & A & _ & C). eauto 6.
Qed.
Print Assumptions C77_other_numbers_of_samples.

(** One sample does not: the first measurement gives the equation arrays of one element,
    for which it returns a plain number, and the report takes the shape of that. *)
Theorem C77_one_sample_refuted :
  exists (V : Type) (O : NumOps V) (R : Rng V) (Ho : HashOrd) gen ppow q l w, numpy_accepts V /\
  field_test 1 104 = Ok l /\ exists w', single_test gen ppow q l w = (Err IndexError, w').
Proof.
  exists Q, _, ToyRng, hord_id, (fun i => i), (fun x _ => x), (11 # 10)%Q, (field_steps 1), (fun _ => 3).
  split; [exact toy_accepts|]. split; [now apply field_test_steps|]. eexists. vm_compute. reflexivity.
Qed.
Print Assumptions C77_one_sample_refuted.
