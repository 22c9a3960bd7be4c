(** Properties of exported and reloaded reports: C50, C51, C52, C63. *)
From Coq Require Import QArith Qabs Lia Lqa.
From Verif Require Import M_Base L_Base M_Num M_Time S_Time L_Time M_RandVar M_TestSpec S_TestSpec M_Device S_Device M_Report M_Env M_Sim S_Sim
  M_Export S_Export L_Export L_Export2 T_Sim.
Open Scope Z_scope.
#[local] Existing Instance hord_id.

(** A report with two measurements and a summary of three steps. *)
Definition ex_line (i : nat) (kind : string) (dur a b : Z) : dict (cell Q) :=
  [("step name", CStr "s"); ("step type", CStr kind); ("step number", CNat i); ("duration", CTime (TD dur));
   ("start time", CTime (TD a)); ("end time", CTime (TD b)); ("temp", CNum (1 # 3))]%string.
Definition ex_rows : list (row Q) :=
  [Row "vth" 0 (Some 0%nat) (Some 0%nat) (Some 0%nat) (TD 0) (9 # 20); Row "vth" 2 (Some 0%nat) (Some 0%nat) (Some 0%nat) (TD 100000001) (2 # 3)].
Definition ex_sums : list (dict (cell Q)) :=
  [ex_line 0 "measure" 0 0 0; ex_line 1 "stress" 100000001 0 100000001; ex_line 2 "measure" 0 100000001 100000001].
Definition ex_x : xreport := XReport "test" "desc" None (Some ex_rows) (Some ex_sums).
Lemma ex_timed : timed ex_x ex_rows ex_sums.
Proof.
  assert (U : forall z, Z.abs z < 10 ^ 16 -> usual_time (TD z)) by (intros z Hz; exists z; auto).
  repeat apply conj; try reflexivity.
  - intros r [<-|[<-|[]]]; apply U; reflexivity.
  - intros d [<-|[<-|[<-|[]]]]; (split; [repeat constructor; cbn; intuition discriminate|]);
      intros k [<-|[<-|[<-|[]]]]; (eexists; split; [reflexivity|apply U; reflexivity]).
  - intros d k t Hd. assert (G : forall i kd du a b, dget (ex_line i kd du a b) k = Some (CTime t) -> In k time_cols).
    { intros i kd du a b. unfold ex_line. cbn [dget time_cols In].
      repeat match goal with |- context [String.eqb k ?a] => destruct (String.eqb_spec k a) as [->|_]; [try (intros X; discriminate X); intros _; auto 7|] end. intros X; discriminate X. }
    destruct Hd as [<-|[<-|[<-|[]]]]; apply G.
Qed.

Definition units_of (o : option string) (n : Z) (Hn : In (o, n) documented_units) := proj2 (unit_map_documented o n) Hn.

Lemma Forall2_impl' {A B} (P P' : A -> B -> Prop) : (forall a b, P a b -> P' a b) -> forall l l', Forall2 P l l' -> Forall2 P' l l'.
Proof. intros H l l' F. induction F; constructor; auto. Qed.

(** ** C50 *)

(** Hours, seconds, milliseconds, microseconds: every time comes back unchanged. *)
Theorem C50_times_restored : forall x rows sums tu n, timed x rows sums ->
  In (chosen x tu, n) documented_units -> n <> 86400000000 ->
  exists j x' rows' sums', export_to_json x tu = Ok j /\ load j = Ok x' /\ x_name x' = x_name x /\ x_desc x' = x_desc x /\
    x_meas x' = Some rows' /\ x_sum x' = Some sums' /\
    Forall2 (row_rel (fun t t' => t' = t) read_back) rows rows' /\ Forall2 (sum_rel (fun t t' => t' = t) read_back) sums sums'.
Proof.
  intros x rows sums tu n W D N. destruct (units_of _ _ D) as (u & Eu & En). apply (reload_main _ _ _ _ _ u W Eu).
  intros us B. rewrite back_exact; auto. intros ->. apply N. now rewrite <- En.
Qed.
Print Assumptions C50_times_restored.
Example C50_example : timed ex_x ex_rows ex_sums /\ In (chosen ex_x (Some "ms"%string), 1000) documented_units /\
  match export_to_json ex_x (Some "ms"%string) with
  | Ok j => j_units j = "milliseconds"%string /\ map r_time (j_meas j) = [TN 0; TN (100000001 # 1000)] /\
      match load j with
      | Ok x' => match x_meas x' with Some l => map r_time l = [TD 0; TD 100000001] /\ map r_val l = [9 # 20; 6666666667 # 10000000000]%Q | None => False end
      | _ => False
      end
  | _ => False
  end.
Proof. split; [exact ex_timed|]. split; [cbn; auto 11|]. vm_compute. repeat split. Qed.

(** Days: within four microseconds. *)
Theorem C50_days_within_4us : forall x rows sums tu, timed x rows sums ->
  In (chosen x tu, 86400000000) documented_units ->
  exists j x' rows' sums', export_to_json x tu = Ok j /\ load j = Ok x' /\ x_name x' = x_name x /\ x_desc x' = x_desc x /\
    x_meas x' = Some rows' /\ x_sum x' = Some sums' /\
    Forall2 (row_rel (time_near 4) read_back) rows rows' /\ Forall2 (sum_rel (time_near 4) read_back) sums sums'.
Proof.
  intros x rows sums tu W D. destruct (units_of _ _ D) as (u & Eu & En). apply (reload_main _ _ _ _ _ u W Eu).
  intros us B. destruct u; try discriminate En. cbn [time_near]. now apply back_days.
Qed.
Print Assumptions C50_days_within_4us.

(** Not exactly: the four microseconds are reached. *)
Theorem C50_days_exact_refuted : exists x rows sums j x' rows', timed x rows sums /\ export_to_json x (Some "days"%string) = Ok j /\ load j = Ok x' /\
  x_meas x' = Some rows' /\ map r_time rows = [TD 0; TD 100000004] /\ map r_time rows' = [TD 0; TD 100000008].
Proof.
  set (rows := [Row "vth" 0 (Some 0%nat) (Some 0%nat) (Some 0%nat) (TD 0) (9 # 20)%Q; Row "vth" 2 (Some 0%nat) (Some 0%nat) (Some 0%nat) (TD 100000004) (2 # 3)%Q]%string).
  exists (XReport "test" "desc" None (Some rows) (Some ex_sums)), rows, ex_sums.
  destruct ex_timed as (_ & _ & _ & S & O).
  do 3 eexists. split. { repeat apply conj; auto. intros r [<-|[<-|[]]]; eexists; split; reflexivity. }
  split; [vm_compute; reflexivity|]. split; [vm_compute; reflexivity|]. split; [reflexivity|]. split; vm_compute; reflexivity.
Qed.
Print Assumptions C50_days_exact_refuted.

(** Beyond 317 years, not even microseconds do. *)
Theorem C50_beyond_317_years_refuted : exists x rows j x' rows' us us',
  x_meas x = Some rows /\ export_to_json x (Some "us"%string) = Ok j /\ load j = Ok x' /\ x_meas x' = Some rows' /\
  map r_time rows = [TD us] /\ map r_time rows' = [TD us'] /\ us' <> us /\ us = 10 ^ 16 + 1.
Proof.
  set (rows := [Row "vth" 0 (Some 0%nat) (Some 0%nat) (Some 0%nat) (TD (10 ^ 16 + 1)) (9 # 20)%Q]%string).
  exists (XReport "test" "desc" None (Some rows) (Some ex_sums)), rows. do 5 eexists. split; [reflexivity|].
  split; [vm_compute; reflexivity|]. split; [vm_compute; reflexivity|]. split; [reflexivity|].
  split; [vm_compute; reflexivity|]. split; [vm_compute; reflexivity|]. split; [vm_compute; discriminate|reflexivity].
Qed.
Print Assumptions C50_beyond_317_years_refuted.

(** The reports of simulations are of this kind: for any test of fewer than 317 years
    with at least one measured value and no condition named like a column. *)
Theorem C50_simulated_reports : forall (O : NumOps Q) (R : Rng Q) (Ho : HashOrd) name desc e d l C L init w st' (rep' : report Q) w' z0,
  device_wf d -> plain_names l -> simulate e d l C L init w = (Ok (st', rep'), w') ->
  match init with Some st => st_elapsed st | None => TD 0 end = TD z0 -> short_test z0 l ->
  rp_meas rep' <> [] -> timed (xreport_of name desc rep') (rp_meas rep') (rp_sum rep').
Proof. intros O R Ho. exact simulated_timed. Qed.
Print Assumptions C50_simulated_reports.
Example C50_simulated_example : timed (xreport_of "a" "b" ex_rep) (rp_meas ex_rep) (rp_sum ex_rep) /\ length (rp_meas ex_rep) = 24%nat.
Proof.
  split; [|vm_compute; reflexivity].
  apply (C50_simulated_reports _ _ _ "a" "b" _ _ _ _ _ _ _ _ _ _ 0 ex_wf (proj1 C43_example) ex_ok eq_refl); [|vm_compute; discriminate].
  split; [lia|]. split; [|vm_compute; reflexivity].
  intros s Hs. cbn in Hs. decompose [or] Hs; try contradiction; try discriminate;
    match goal with X : _ = SStrs s |- _ => injection X as <- end; vm_compute; discriminate.
Qed.

(** ** C51 *)

(** What is read back for a value: the nearest multiple of 1e-10; multiples of 1e-10
    are exact and values below half of that vanish.  Values of magnitude above
    10^16 - 1 or (except 0) below 1e-15 keep ten significant digits instead. *)
Definition kept (v v' : Q) : Prop :=
  (ordinary v ->
     (Qabs (v' - v) <= 1 # (2 * 10 ^ 10))%Q /\
     (exists z, v' == inject_Z z * (1 # 10 ^ 10))%Q /\
     (forall z, v == inject_Z z * (1 # 10 ^ 10) -> v' == v)%Q /\
     (Qabs v < 1 # (2 * 10 ^ 10) -> v' == 0)%Q) /\
  (~ ordinary v -> (Qabs (v' - v) <= Qabs v * (1 # (2 * 10 ^ 9)))%Q).
Theorem C51_values : forall x rows sums tu n, timed x rows sums -> In (chosen x tu, n) documented_units ->
  exists j x' rows' sums', export_to_json x tu = Ok j /\ load j = Ok x' /\ x_meas x' = Some rows' /\ x_sum x' = Some sums' /\
    Forall2 (row_rel (time_near 4) kept) rows rows' /\ Forall2 (sum_rel (time_near 4) kept) sums sums'.
Proof.
  intros x rows sums tu n (M & U & R & S & O) D. destruct (units_of _ _ D) as (u & Eu & En).
  assert (T : forall us, Z.abs us < 10 ^ 16 -> time_near 4 (TD us) (TD (back u us))).
  { intros us B. cbn [time_near]. destruct u; [now apply back_days|rewrite back_exact by (auto; discriminate); rewrite Z.sub_diag; discriminate..]. }
  destruct (reload_genN kept) with (T1 := time_near 4) (T2 := time_near 4) (x := x) (tu := tu) (rows := rows) (sums := sums) (u := u)
    as (j & x' & rows' & sums' & A & B & _ & _ & C); auto.
  - intros v. split; [|apply json_extreme_err]. intros Hv. split; [apply json_read_back, Hv|]. split; [|split].
    + destruct (json_ordinary v Hv) as (z & Ez & _). exists z. eapply Qeq_trans; [exact Ez|]. change e10 with 10000000000. change (inject_Z 10000000000) with 10000000000%Q. change (1 # 10 ^ 10)%Q with (1 # 10000000000)%Q. field.
    + intros z E. now apply (json_multiple v z).
    + now apply json_tiny.
  - intros r I. destruct (R r I) as (us & -> & B). now apply T.
  - exists j, x', rows', sums'. auto.
Qed.
Print Assumptions C51_values.
Example C51_example : ordinary (2 # 3) /\ ordinary (1 # 10 ^ 12) /\ ~ ordinary (1 # 10 ^ 18) /\ ~ ordinary (inject_Z (10 ^ 17 + 3)) /\
  let rows := map (fun v => Row "i" 0 None None None (TD 0) v) [2 # 3; 1 # 10 ^ 12; 1 # 10 ^ 18; inject_Z (10 ^ 17 + 3); (-5 # 4)]%Q in
  match export_to_json (XReport "" "" None (Some rows) (Some ex_sums)) None with
  | Ok j => match load j with
            | Ok x' => option_map (map r_val) (x_meas x') = Some [6666666667 # 10000000000; 0; 1 # 10 ^ 18; inject_Z (10 ^ 17); (-5 # 4)]%Q
            | _ => False
            end
  | _ => False
  end.
Proof.
  unfold ordinary. repeat apply conj; try (vm_compute; try discriminate; try reflexivity; auto; fail).
  - right. vm_compute. discriminate.
  - right. vm_compute. discriminate.
  - intros [[E|E] _]; vm_compute in E; [discriminate E|now apply E].
  - intros [_ E]. vm_compute in E. now apply E.
Qed.

(** ** C52 *)

(** One conversion turns the times of measurements into numbers, the same again
    turns them back; the summary is not touched. *)
Theorem C52_twice_restores : forall x rows sums tu n, timed x rows sums -> In (tu, n) documented_units ->
  exists x1 x2 rows1, convert_report_time x tu = (Ok tt, x1) /\ x_meas x1 = Some rows1 /\ x_sum x1 = Some sums /\
    Forall2 (row_rel (fun t t' => exists us q, t = TD us /\ t' = TN q /\ q * inject_Z n == inject_Z us)%Q eq) rows rows1 /\
    convert_report_time x1 tu = (Ok tt, x2) /\ x_meas x2 = Some rows /\ x_sum x2 = Some sums.
Proof.
  intros x rows sums tu n (M & U & R & S & O) D. destruct (units_of _ _ D) as (u & Eu & En).
  assert (Eu' : unit_map (match tu with None => Some "hours"%string | t => t end) = Some u) by (destruct tu; auto).
  destruct (convert_ok x tu u rows Eu' M) as (s & _ & _ & E1).
  destruct (convert_ok (XReport (x_name x) (x_desc x) (Some s) (Some (map (in_row u) rows)) (x_sum x)) tu u _ Eu' eq_refl) as (s2 & _ & _ & E2).
  do 3 eexists. split; [exact E1|]. split; [reflexivity|]. split; [exact U|]. split; [|split; [exact E2|]].
  - clear - R En. induction rows as [|r rows IH]; [constructor|]. cbn [map]. constructor; [|apply IH; intros; apply R; now right].
    destruct (R r (or_introl eq_refl)) as (us & Et & _). unfold row_rel, in_row, with_time. cbn [r_param r_step r_dev r_chp r_lot r_time r_val].
    repeat (split; [reflexivity|]). split; [|reflexivity]. exists us, (td_to_num u us). rewrite Et. split; [reflexivity|]. split; [reflexivity|].
    rewrite <- En. apply td_to_num_us.
  - split; [|exact U]. cbn [x_meas]. f_equal. rewrite map_map. rewrite <- (map_id rows) at 2. apply map_ext_in. intros r I.
    destruct (R r I) as (us & Et & _). unfold in_row, with_time. cbn [r_param r_step r_dev r_chp r_lot r_time r_val]. rewrite Et, flip_flip, <- Et. now destruct r.
Qed.
Print Assumptions C52_twice_restores.

(** After one conversion (unit of [n] us) an export (unit of [n2] us) and reload give
    for a time of [us]: the number of milliseconds of the time that the number of
    units [n] is in units [n2], taken as a number of units [n2].  Summary times are
    as without conversion. *)
Theorem C52_export_after_conversion : forall x rows sums tu n x1 tu2 n2, timed x rows sums ->
  In (tu, n) documented_units -> convert_report_time x tu = (Ok tt, x1) -> In (chosen x1 tu2, n2) documented_units ->
  exists j x' rows' sums', export_to_json x1 tu2 = Ok j /\ load j = Ok x' /\ x_meas x' = Some rows' /\ x_sum x' = Some sums' /\
    Forall2 (row_rel (fun t t' => exists us q us2, t = TD us /\ (q * inject_Z n == inject_Z us)%Q /\ nearest_even (q * inject_Z n2) us2 /\
                                    t' = TD (Z.quot us2 1000 * n2)) read_back) rows rows' /\
    Forall2 (sum_rel (fun t t' => usual_time t -> time_near (if n2 =? 86400000000 then 4 else 0) t t') read_back) sums sums'.
Proof.
  intros x rows sums tu n x1 tu2 n2 W D E D2. destruct (units_of _ _ D) as (u & Eu & En), (units_of _ _ D2) as (u2 & Eu2 & En2).
  assert (Eu' : unit_map (match tu with None => Some "hours"%string | t => t end) = Some u) by (destruct tu; auto).
  destruct (convert_reload _ _ _ _ _ _ _ _ W Eu' E Eu2) as (j & x' & rows' & sums' & A & B & C & F & G & I).
  exists j, x', rows', sums'. do 4 (split; auto). split.
  - revert G. apply Forall2_impl'. intros r r' (A1 & A2 & A3 & A4 & A5 & (us & A6 & A7) & A8). repeat (split; auto).
    exists us, (td_to_num u us), (num_to_td u2 (td_to_num u us)). split; auto. split; [rewrite <- En; apply td_to_num_us|]. rewrite <- En2. split; auto. apply round_half_even_spec.
  - revert I. apply Forall2_impl'. intros d d' (K & I). split; auto. intros k c Ec. destruct (I k c Ec) as (c' & Ec' & Rc). exists c'. split; auto.
    destruct c, c'; cbn [cell_rel] in *; auto. intros (us & -> & B1). rewrite Rc. cbn [flip json_time time_near]. fold (back u2 us).
    destruct u2; cbn [us_per] in En2; subst n2; cbn; [now apply back_days|rewrite back_exact by (auto; discriminate); rewrite Z.sub_diag; discriminate..].
Qed.
Print Assumptions C52_export_after_conversion.
(** With the same unit, only the time 0 and, in milliseconds, whole numbers of
    milliseconds survive. *)
Theorem C52_only_zero_survives : forall x rows sums tu n x1 tu2, timed x rows sums ->
  In (tu, n) documented_units -> convert_report_time x tu = (Ok tt, x1) -> In (chosen x1 tu2, n) documented_units ->
  exists j x' rows', export_to_json x1 tu2 = Ok j /\ load j = Ok x' /\ x_meas x' = Some rows' /\
    Forall2 (row_rel (fun t t' => exists us us', t = TD us /\ t' = TD us' /\ us' = Z.quot us 1000 * n /\
       (us' = us <-> us = 0 \/ (n = 1000 /\ (1000 | us)))) read_back) rows rows'.
Proof.
  intros x rows sums tu n x1 tu2 W D E D2. destruct (C52_export_after_conversion _ _ _ _ _ _ _ _ W D E D2) as (j & x' & rows' & sums' & A & B & C & _ & G & _).
  exists j, x', rows'. do 3 (split; auto). revert G. apply Forall2_impl'. intros r r' (A1 & A2 & A3 & A4 & A5 & (us & q & us2 & A6 & A7 & A8 & A9) & A10).
  assert (us2 = us) as -> by (eapply nearest_even_unique; [exact A8|now apply nearest_even_int]).
  repeat (split; auto). exists us, (Z.quot us 1000 * n). repeat (split; auto).
  - destruct (units_of _ _ D) as (u & _ & <-). intros X. apply quot_iff in X. destruct X as [X|[-> X]]; auto.
  - destruct (units_of _ _ D) as (u & _ & <-). intros X. apply quot_iff. destruct X as [X|[Y X]]; auto. right. split; auto. destruct u; auto; discriminate Y.
Qed.
Print Assumptions C52_only_zero_survives.
Example C52_example : exists x1, convert_report_time ex_x None = (Ok tt, x1) /\
  (match x_meas x1 with Some l => map r_time l = [TN (0 # 3600000000); TN (100000001 # 3600000000)] | None => False end) /\
  match export_to_json x1 None with
  | Ok j => match load j with
            | Ok x' => option_map (map r_time) (x_meas x') = Some [TD 0; TD (100000 * 3600000000)] /\
                       option_map (map (fun d => dget d "end time")) (x_sum x') = Some [Some (CTime (TD 0)); Some (CTime (TD 100000001)); Some (CTime (TD 100000001))]
            | _ => False
            end
  | _ => False
  end.
Proof. eexists. split; [vm_compute; reflexivity|]. vm_compute. repeat split. Qed.

(** An unknown unit raises UserConfigError.  A conversion that failed so is
    remembered: an export without a unit then fails in the same way, one with a known
    unit works. *)
Theorem C52_unknown_unit : forall x rows sums s, timed x rows sums -> rows <> [] -> (forall n, ~ In (Some s, n) documented_units) ->
  exists x1, convert_report_time x (Some s) = (Err UserConfigError, x1) /\ x_meas x1 = Some rows /\ x_sum x1 = Some sums /\
    export_to_json x (Some s) = Err UserConfigError /\ export_to_json x1 None = Err UserConfigError /\
    forall good n, In (Some good, n) documented_units -> export_to_json x1 (Some good) = export_to_json x (Some good) /\ exists j, export_to_json x (Some good) = Ok j.
Proof.
  intros x rows sums s W Ne N. pose proof W as (M & U & _). apply unit_map_None in N.
  eexists. split; [apply (convert_bad x (Some s) rows); auto|]. split; [exact M|]. split; [exact U|].
  split; [eapply export_bad; eauto|]. split; [eapply export_bad; eauto|].
  intros good n D. split.
  - unfold export_to_json, export_units. cbn [x_meas x_sum x_name x_desc]. reflexivity.
  - destruct (units_of _ _ D) as (u & Eu & _). destruct (reload_main (fun _ _ => True) x (Some good) _ _ u W Eu) as (j & _ & _ & _ & E & _); eauto.
Qed.
Print Assumptions C52_unknown_unit.
Example C52_unknown_example : ex_rows <> [] /\ (forall n, ~ In (Some "weeks"%string, n) documented_units).
Proof. split; [discriminate|]. intros n. cbn. intuition discriminate. Qed.
(** A report without measurements cannot be exported nor converted. *)
Theorem C52_no_measurements : forall x tu, x_meas x = None ->
  fst (convert_report_time x tu) = Err KeyError /\
  (export_to_json x tu = Err KeyError \/ export_to_json x tu = Err UserConfigError) /\
  (forall n, In (chosen x tu, n) documented_units -> export_to_json x tu = Err KeyError).
Proof.
  intros x tu M. unfold convert_report_time, export_to_json. rewrite M. split; [reflexivity|]. split.
  - unfold export_units. destruct tu; [destruct (unit_map (Some s))|]; cbn [rbind]; auto.
  - intros n D. destruct (units_of _ _ D) as (u & Eu & _). destruct (export_units_ok _ _ _ Eu) as (s & -> & _). reflexivity.
Qed.
Print Assumptions C52_no_measurements.
Example C52_no_measurements_example : x_meas (xreport_of "a" "b" (report_init (V := Q) [] 1 1)) = None.
Proof. reflexivity. Qed.

(** ** C63 *)

(** A second export of the loaded report gives exactly the same JSON, in any unit,
    when all numbers are of ordinary size. *)
Theorem C63_second_export_same : forall x rows sums tu n, timed x rows sums ->
  (forall r, In r rows -> ordinary (r_val r)) -> (forall d k q, In d sums -> dget d k = Some (CNum q) -> ordinary q) ->
  In (chosen x tu, n) documented_units ->
  exists j x', export_to_json x tu = Ok j /\ load j = Ok x' /\ export_to_json x' tu = Ok j.
Proof. intros x rows sums tu n W OV OC D. destruct (units_of _ _ D) as (u & Eu & _). exact (second_export x tu rows sums u W OV OC Eu). Qed.
Print Assumptions C63_second_export_same.
Example C63_example : (forall r, In r ex_rows -> ordinary (r_val r)) /\ (forall d k q, In d ex_sums -> dget d k = Some (CNum q) -> ordinary q) /\
  In (chosen ex_x (Some "d"%string), 86400000000) documented_units.
Proof.
  assert (O3 : ordinary (1 # 3)) by (split; [right|]; vm_compute; discriminate).
  split; [|split; [|cbn; auto]].
  - intros r [<-|[<-|[]]]; (split; [right|]; vm_compute; discriminate).
  - intros d k q Hd. assert (G : forall i kd du a b, dget (ex_line i kd du a b) k = Some (CNum q) -> ordinary q).
    { intros i kd du a b. unfold ex_line. cbn [dget].
      repeat match goal with |- context [String.eqb k ?a] => destruct (String.eqb k a); [intros X; try discriminate X|] end; [injection X as <-; exact O3|intros X; discriminate X]. }
    destruct Hd as [<-|[<-|[<-|[]]]]; apply G.
Qed.
(** Not so for other numbers: one just below 1e-15 is first rounded to 1e-15 and
    then, by the second export, to 0. *)
Theorem C63_every_number_refuted : exists x j x' j' v v',
  export_to_json x None = Ok j /\ load j = Ok x' /\ export_to_json x' None = Ok j' /\
  map r_val (j_meas j) = [v] /\ map r_val (j_meas j') = [v'] /\ (v == 1 # 10 ^ 15)%Q /\ (v' == 0)%Q.
Proof.
  exists (XReport "" "" None (Some [Row "i" 0 None None None (TD 0) (999999999999 # 10 ^ 27)%Q]%string) (Some ex_sums)).
  do 5 eexists. repeat (split; [vm_compute; reflexivity|]). vm_compute; reflexivity.
Qed.
Print Assumptions C63_every_number_refuted.
