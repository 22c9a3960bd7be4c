(** Specification notions for simulations: what the two tables of a report should
    contain, counts, shapes, and independence notions. *)
From Coq Require Import QArith.
From Verif Require Import M_Base M_Num M_Nd M_RandVar M_Latent M_Time M_TestSpec M_Device M_Report M_Env M_Sim
  S_TestSpec S_Device.
Open Scope nat_scope.

Section Spec.
Context {V : Type} `{NumOps V}.

(** ** The summary table *)
Definition columns : list string :=
  ["step name"; "step type"; "step number"; "duration"; "start time"; "end time"]%string.
Definition step_conds (s : step V) : list string :=
  match s with SMeas m => dkeys (ms_conds m) | SStrs x => dkeys (ss_conds x) | SOther _ => [] end.
(** No condition of the test is named like a standard column. *)
Definition plain_names (l : list (step V)) : Prop :=
  forall s c, In s l -> In c (step_conds s) -> ~ In c columns.

Definition row_says (r : dict (cell V)) (name kind : string) (i : nat) (dur start stop : tval) : Prop :=
  dget r "step name" = Some (CStr name) /\ dget r "step type" = Some (CStr kind) /\
  dget r "step number" = Some (CNat i) /\ dget r "duration" = Some (CTime dur) /\
  dget r "start time" = Some (CTime start) /\ dget r "end time" = Some (CTime stop).

(** The rows of steps numbered from [i], started at time [t]. *)
Inductive summary_of : nat -> tval -> list (step V) -> list (dict (cell V)) -> Prop :=
| sm_nil i t : summary_of i t [] []
| sm_other i t o l rs : summary_of (S i) t l rs -> summary_of i t (SOther o :: l) rs
| sm_meas i t m l r rs : row_says r (ms_name m) "measure" i (TD 0) t t ->
    summary_of (S i) t l rs -> summary_of i t (SMeas m :: l) (r :: rs)
| sm_stress i t s l r rs :
    row_says r (ss_name s) "stress" i (TD (ss_dur s)) (TD t) (TD (t + ss_dur s)) ->
    summary_of (S i) (TD (t + ss_dur s)) l rs -> summary_of i (TD t) (SStrs s :: l) (r :: rs).

(** ** The table of measurements *)

(** Rows of steps numbered from [i], started at time [t]: for every measurement
    step, one group of rows for each requested parameter in order. *)
Inductive table_of (group : nat -> tval -> string * nat -> list (row V) -> Prop)
  : nat -> tval -> list (step V) -> list (row V) -> Prop :=
| tb_nil i t : table_of group i t [] []
| tb_other i t o l rs : table_of group (S i) t l rs -> table_of group i t (SOther o :: l) rs
| tb_meas i t m l gs rs : Forall2 (group i t) (ms_counts m) gs ->
    table_of group (S i) t l rs -> table_of group i t (SMeas m :: l) (concat gs ++ rs)
| tb_stress i t s l rs : table_of group (S i) (TD (t + ss_dur s)) l rs ->
    table_of group i (TD t) (SStrs s :: l) rs.

(** Every row names the parameter, the step and the time. *)
Definition stamped (i : nat) (t : tval) (kv : string * nat) (g : list (row V)) : Prop :=
  forall r, In r g -> r_param r = fst kv /\ r_step r = i /\ r_time r = t.

(** Time after some steps. *)
Definition time_after (t : tval) (l : list (step V)) (t' : tval) : Prop :=
  (exists x, t = TD x /\ t' = TD (x + stress_time l)) \/
  (t' = t /\ forall s, ~ In (SStrs s) l).

(** ** Parts of the state *)

(** The value of mechanism [nm] of parameter [name]. *)
Definition mech_val (st : simstate V) (name nm : string) (v : pyval V) : Prop :=
  exists mv, dget (st_mech st) name = Some mv /\ dget mv nm = Some v.

(** Parameter [name] is a degraded parameter with mechanism [m] called [nm]. *)
Definition has_mech (d : device V) (name nm : string) (m : mech V) : Prop :=
  exists p, dget d name = Some (PDeg p) /\ dget (dp_mechs p) nm = Some m.

(** The parameters and mechanisms of the state are those of the device. *)
Definition matches (d : device V) (st : simstate V) : Prop :=
  forall name p, dget d name = Some (PDeg p) ->
    dmem (st_prm st) name = true /\
    exists mv, dget (st_mech st) name = Some mv /\ dkeys mv = dkeys (dp_mechs p).

(** Python dictionaries have distinct keys. *)
Definition device_wf (d : device V) : Prop :=
  dwf d /\ forall name p, dget d name = Some (PDeg p) -> dwf (dp_mechs p).

(** Only the degraded values and the time may change. *)
Definition same_start (s s' : simstate V) : Prop :=
  st_lat s' = st_lat s /\ st_prm0 s' = st_prm0 s /\ st_mech0 s' = st_mech0 s.

(** ** Sample counts *)

(** [q] is needed [n] times: requested itself, or by a measured circuit parameter
    whose equation has an argument [q]. *)
Definition needed (d : device V) (counts : dict nat) (q : string) (n : nat) : Prop :=
  dget counts q = Some n \/
  exists p c, dget counts p = Some n /\ dget d p = Some (PCirc c) /\ In q (dkeys d) /\
              In q (compute_args (lm_eqn c)).
Definition greatest (P : nat -> Prop) (n : nat) : Prop := P n /\ forall m, P m -> m <= n.

(** Circuit parameters use degraded parameters only. *)
Definition circuits_plain (d : device V) : Prop :=
  forall p c q, dget d p = Some (PCirc c) -> In q (dkeys d) -> In q (compute_args (lm_eqn c)) ->
    exists x, dget d q = Some (PDeg x).

(** ** Shapes *)
Definition shaped (L C n : nat) (p : pyval V) : Prop :=
  exists a, p = PArr a /\ nshape a = [L; C; n] /\ length (ndata a) = L * C * n.

(** Labels of the rows of a measurement of a device parameter: every lot, chip and
    device number below [k] exactly once, in that order. *)
Definition labelled (L C k : nat) (g : list (row V)) : Prop :=
  length g = L * C * k /\
  forall l c d, l < L -> c < C -> d < k ->
    exists r, nth_error g ((l * C + c) * k + d) = Some r /\ r_lot r = Some l /\ r_chp r = Some c /\ r_dev r = Some d.
Definition unlabelled (k : nat) (g : list (row V)) : Prop :=
  length g = k /\ forall r, In r g -> r_lot r = None /\ r_chp r = None /\ r_dev r = None.

(** ** Independence of measurements *)

(** Equal up to the step number. *)
Definition same_row (r r' : row V) : Prop :=
  r_param r' = r_param r /\ r_dev r' = r_dev r /\ r_chp r' = r_chp r /\ r_lot r' = r_lot r /\
  r_time r' = r_time r /\ r_val r' = r_val r.
Definition same_summary (c c' : dict (cell V)) : Prop :=
  dkeys c' = dkeys c /\ forall x, x <> "step number"%string -> dget c' x = dget c x.
Definition same_info (r r' : report V) : Prop :=
  rp_chps r' = rp_chps r /\ rp_lots r' = rp_lots r /\ rp_counts r' = rp_counts r.

(** [l'] is [l] without some of its measurement steps. *)
Inductive thinned : list (step V) -> list (step V) -> Prop :=
| th_nil : thinned [] []
| th_keep s l l' : thinned l l' -> thinned (s :: l) (s :: l')
| th_drop m l l' : thinned l l' -> thinned (SMeas m :: l) l'.

(** The measurement tables of a test [l] (numbered from [i]) and of the same test
    without some measurement steps: the rows of the other steps are the same up to
    their step number. *)
Inductive tables_agree : nat -> nat -> list (step V) -> list (step V) -> list (row V) -> list (row V) -> Prop :=
| ta_nil i j : tables_agree i j [] [] [] []
| ta_keep i j s l l' g g' rs rs' :
    Forall (fun r => r_step r = i) g -> Forall (fun r => r_step r = j) g' -> Forall2 same_row g g' ->
    tables_agree (S i) (S j) l l' rs rs' -> tables_agree i j (s :: l) (s :: l') (g ++ rs) (g' ++ rs')
| ta_drop i j m l l' g rs rs' :
    Forall (fun r => r_step r = i) g ->
    tables_agree (S i) j l l' rs rs' -> tables_agree i j (SMeas m :: l) l' (g ++ rs) rs'.
(** The same for the two summaries. *)
Inductive summaries_agree : list (step V) -> list (step V) -> list (dict (cell V)) -> list (dict (cell V)) -> Prop :=
| sa_nil : summaries_agree [] [] [] []
| sa_keep s l l' c c' rs rs' : same_summary c c' -> (forall o, s <> SOther o) -> summaries_agree l l' rs rs' ->
    summaries_agree (s :: l) (s :: l') (c :: rs) (c' :: rs')
| sa_other o l l' rs rs' : summaries_agree l l' rs rs' -> summaries_agree (SOther o :: l) (SOther o :: l') rs rs'
| sa_drop m l l' c rs rs' : summaries_agree l l' rs rs' -> summaries_agree (SMeas m :: l) l' (c :: rs) rs'.

(** Nothing is drawn: a fixed random variable, an equation that draws nothing. *)
Definition fixed (r : rv V) : Prop := exists v, rv_dist r = DDeter v.
Definition draws_nothing (f : eqn V) : Prop := forall args w, snd (e_body f args w) = w.
Definition fixed_env (e : env V) : Prop :=
  forall k a, In (k, a) e ->
    match a with
    | AVar m => fixed (em_bat m) /\ fixed (em_chp m) /\ fixed (em_dev m)
    | AInst i => match in_err i with Some r => fixed r | None => True end
    end.
(** The equations used when measuring. *)
Definition quiet_device (d : device V) : Prop :=
  forall k q, In (k, q) d ->
    match q with
    | PDeg p => draws_nothing (lm_eqn (dp_own p)) /\ draws_nothing (lm_eqn (dp_cond p))
    | PCirc c => draws_nothing (lm_eqn c)
    end.

(** No equation of the device raises [ex] itself. *)
Definition not_raised (ex : exn) (f : eqn V) : Prop := forall args w, fst (e_body f args w) <> Err ex.
Definition device_not_raising (ex : exn) (d : device V) : Prop :=
  forall k q, In (k, q) d ->
    match q with
    | PDeg p => not_raised ex (lm_eqn (dp_init p)) /\ not_raised ex (lm_eqn (dp_cond p)) /\ not_raised ex (lm_eqn (dp_own p)) /\
                forall nm m, In (nm, m) (dp_mechs p) -> not_raised ex (lm_eqn (mc_mdl m))
    | PCirc c => not_raised ex (lm_eqn c)
    end.
End Spec.
