(** Properties of instruments and test environments: C16, C21, C22, C23, C58. *)
From Coq Require Import Reals QArith Lra Lia.
From Flocq Require Import BinarySingleNaN.
From Verif Require Import M_Base M_Num M_NumR M_NumB M_Nd M_RandVar M_Latent M_Device M_Report M_Env M_Toy
  S_Latent S_Env S_EnvR L_Base L_Latent L_Device L_Env L_Env2 L_Env3 L_EnvR.
Open Scope nat_scope.

(** ** C16 *)

(** A request is answered for exactly its names; a device parameter gets exactly the
    given conditions its model depends on, any other name must itself be a
    condition. *)
Theorem C16_conditions_complete : forall V (O : NumOps V) (R : Rng V) (Ho : HashOrd)
    (e : env V) base prms info dev stress nc nl w res w', dwf base ->
  gen_env_cond_vals e base prms info dev stress nc nl w = (Ok res, w') ->
  (forall x, dmem res x = true <-> In x (request prms)) /\
  forall x v, dget res x = Some v ->
    match dev_prm dev x with
    | Some q => forall cond, dmem v cond = true <-> In cond (dkeys base) /\ depends q stress cond
    | None => In x (dkeys base) /\ dkeys v = [x]
    end.
Proof. intros V O R Ho e base prms info dev stress nc nl w res w' W E. apply env_conds_ok in E as (A & _ & B); auto. Qed.
Print Assumptions C16_conditions_complete.

(** For every condition there is one batch draw and one draw per chip from which
    the arrays of all parameters are built (and the batch draw also underlies its
    sensors); every array has a row of device draws of its own. *)
Theorem C16_chip_values_shared : forall V (O : NumOps V) (R : Rng V) (Ho : HashOrd)
    (e : env V) base prms info dev stress nc nl w res w', dwf base ->
  gen_env_cond_vals e base prms info dev stress nc nl w = (Ok res, w') ->
  let C := match info with Some i => ti_chps i | None => nc end in
  let L := match info with Some i => ti_lots i | None => nl end in
  forall cond v0, dget base cond = Some v0 -> exists m t xb chps wb wc wd,
    vrtn_mdl e cond = Ok m /\ em_op m = Some t /\ reads (em_bat m) 1 wb [xb] wc /\ reads (em_chp m) (C * L) wc chps wd /\
    forall x v, dget res x = Some v ->
      match dev_prm dev x with
      | Some _ => forall p, dget v cond = Some p -> exists n a devs w1 w2,
          p = PArr a /\ request_count prms info x = Some n /\ nshape a = [L; C; n] /\ length (ndata a) = L * C * n /\
          reads (em_dev m) (n * (L * C)) w1 devs w2 /\
          forall l c k, l < L -> c < C -> k < n -> exists xc xd,
            nth_error chps (l * C + c) = Some xc /\ nth_error devs ((l * C + c) * n + k) = Some xd /\
            nth_error (ndata a) ((l * C + c) * n + k) = Some (combine t (combine t (combine t v0 xb) xc) xd)
      | None => x = cond -> exists n a sens devs w1 w2 w3,
          v = [(cond, PArr a)] /\ request_count prms info x = Some n /\ nshape a = [1; n; 1] /\ length (ndata a) = n /\
          reads (em_chp m) n w1 sens w2 /\ reads (em_dev m) n w2 devs w3 /\
          forall k, k < n -> exists xc xd, nth_error sens k = Some xc /\ nth_error devs k = Some xd /\
            nth_error (ndata a) k = Some (combine t (combine t (combine t v0 xb) xc) xd)
      end.
Proof. intros V O R Ho. exact env_conds_elements. Qed.
Print Assumptions C16_chip_values_shared.

(** The device draws of a later parameter are made after those of an earlier one,
    on the same chip values. *)
Theorem C16_device_draws_fresh : forall V (O : NumOps V) (R : Rng V) (Ho : HashOrd)
    (e : env V) base prms info dev stress nc nl w res w' l1 x l2 y l3 cond ax ay qx qy vx vy,
  request prms = l1 ++ x :: l2 ++ y :: l3 -> NoDup (request prms) ->
  gen_env_cond_vals e base prms info dev stress nc nl w = (Ok res, w') ->
  dev_prm dev x = Some qx -> dev_prm dev y = Some qy ->
  dget res x = Some vx -> dget vx cond = Some (PArr ax) -> dget res y = Some vy -> dget vy cond = Some (PArr ay) ->
  exists m c nx ny w1 w2 w3 w4, vrtn_mdl e cond = Ok m /\
    gen_dev m c nx w1 = (Ok ax, w2) /\ reached w2 w3 /\ gen_dev m c ny w3 = (Ok ay, w4).
Proof. intros V O R Ho. exact env_conds_fresh. Qed.
Print Assumptions C16_device_draws_fresh.

(** Example: two parameters that depend on a temperature which varies per chip and
    per device, one lot of two chips, and two temperature sensors. *)
#[local] Instance hord_id : HashOrd := {| hord := nodup String.string_dec;
  hord_ok := fun l => conj (NoDup_nodup _ l) (fun x => nodup_In _ l x) |}.
Definition exe_eqn : eqn Q := Eqn ["temp"; "x"]%string [] None (fun a => lift (dgetE a "temp")).
Definition exe_prm : degprm Q := DegPrm (LMdl eqn_basic []) (LMdl (eqn_const 0%Q) []) 0%Q [] (LMdl exe_eqn []).
Definition exe_dev : device Q := [("p"%string, PDeg exe_prm); ("q"%string, PDeg exe_prm)].
Definition exe_temp : emdl Q := EMdl (Some "temp"%string) (Some Offset) 0%Q (Some Offset)
  (Rv 0 (DDeter 0%Q) None) false (Rv 3 (DNormal 0 100)%Q None) true (Rv 4 (DNormal 0 1)%Q None) true.
Definition exe_env : env Q := [("temp_var"%string, AVar exe_temp)].
Definition exe_req : prms_arg := PCounts [("p"%string, 1); ("temp"%string, 2); ("q"%string, 2)].
Example C16_example : exists w',
  gen_env_cond_vals exe_env [("temp", 300%Q); ("vdd", 1%Q)]%string exe_req None (Some exe_dev) true 2 1 (fun g => g) =
  (Ok [("p", [("temp", PArr (Nd [1; 2; 1] [604; 705]%Q))]);
       ("temp", [("temp", PArr (Nd [1; 2; 1] [806; 907]%Q))]);
       ("q", [("temp", PArr (Nd [1; 2; 2] [608; 609; 710; 711]%Q))])]%string, w') /\ w' 3 = 7 /\ w' 4 = 12.
Proof. vm_compute. eexists. repeat split. Qed.
Example C16_example_applies : exists m c nx ny w1 w2 w3 w4, vrtn_mdl exe_env "temp" = Ok m /\
    gen_dev m c nx w1 = (Ok (Nd [1; 2; 1] [604; 705]%Q), w2) /\ reached w2 w3 /\ gen_dev m c ny w3 = (Ok (Nd [1; 2; 2] [608; 609; 710; 711]%Q), w4).
Proof.
  destruct C16_example as (w' & E & _).
  eapply (C16_device_draws_fresh Q QOps _ _ exe_env _ exe_req None (Some exe_dev) true 2 1 _ _ w' [] "p"%string ["temp"%string] "q"%string []); try exact E; try reflexivity.
  repeat constructor; cbn; intuition discriminate.
Qed.

(** ** C21 *)

(** Every reported value is within the limits (NaN excepted: only a NaN stays one),
    and a value that is within them before the limits apply is reported as it is. *)
Theorem C21_within_limits : forall V (O : NumOps V) (R : Rng V) (i : instm V) lims vals w ys w',
  ordered V -> in_range i = Some lims -> nan_free lims -> measure i vals w = (Ok ys, w') ->
  forall k y, nth_error ys k = Some y ->
    (nan y \/ within lims y) /\
    exists x x' r, nth_error vals k = Some x /\ rounded (in_prec i) x' r /\
      (in_err i = None -> x' = x) /\ (forall rv, in_err i = Some rv -> exists ek, x' = nadd x ek) /\
      (nan y -> nan r) /\ (within lims r -> ~ nan r -> y = r) /\ (~ nan r -> nearest lims r y).
Proof. intros V O R. exact measure_limits. Qed.
Print Assumptions C21_within_limits.

(** In particular for IEEE double precision numbers, with infinities. *)
Theorem C21_binary64 : forall (O : NumOps b64t) (R : Rng b64t) (i : instm b64t) l h vals w ys w',
  ieee_order O -> is_nan l = false -> is_nan h = false -> in_range i = Some (Some l, Some h) ->
  measure i vals w = (Ok ys, w') ->
  forall y, In y ys -> BinarySingleNaN.is_nan y = true \/
    (Bleb l y = true /\ Bleb y h = true) \/ (Bleb h y = true /\ Bleb y l = true).
Proof.
  intros O R i l h vals w ys w' HO Nl Nh Er E y Hy. apply In_nth_error in Hy as [k Hk].
  assert (Nn : forall z : b64t, is_nan z = false -> ~ nan z).
  { intros z Hz. unfold nan. unfold is_nan in Hz. destruct (neqb z z); [discriminate|discriminate]. }
  destruct (C21_within_limits b64t O R i (Some l, Some h) vals w ys w' (ordered_B O HO) Er) with (k := k) (y := y) as [[N|B] _]; auto.
  - split; cbn; intros z Q; injection Q as <-; auto.
  - left. destruct HO as (Eq & _). unfold nan in N. rewrite Eq, Beqb_refl in N. now destruct (BinarySingleNaN.is_nan y).
  - right. destruct HO as (_ & Le & _). unfold within, between in B. rewrite !Le in B. exact B.
Qed.
Print Assumptions C21_binary64.

(** Limits given in the wrong order, an error draw, three significant figures, an
    infinite and a NaN true value. *)
#[local] Instance exb_rng : Rng b64t := {| rdraw := fun _ s => (b_of_Z 1, S s); rvalid := fun _ => true |}.
Definition exb_instm : instm b64t :=
  Instm (Some "v"%string) (Some 3%Z) (Some (Rv 0 (DNormal (b_of_Z 0) (b_of_Z 1)) None)) (Some (Some (b_of_Z 9), Some (b_of_Z (-2)))).
Definition exb_inf : b64t := B754_infinity false.
Definition exb_out (i : instm b64t) (vals : list b64t) : option (list SpecFloat.spec_float * nat) :=
  match measure i vals (fun _ => 0) with (Ok ys, w') => Some (map B2SF ys, w' 0) | _ => None end.
Example C21_example : exb_out exb_instm [exb_inf; b_of_Z 7; b_of_Z (-100); B754_infinity true]
  = Some (map B2SF [b_of_Z 9; b_of_Z 8; b_of_Z (-2); b_of_Z (-2)], 4).
Proof. vm_compute. reflexivity. Qed.
Example C21_example_applies : forall ys w',
  measure exb_instm [exb_inf; b_of_Z 7; b_of_Z (-100)] (fun _ => 0) = (Ok ys, w') ->
  forall y, In y ys -> BinarySingleNaN.is_nan y = true \/
    (Bleb (b_of_Z 9) y = true /\ Bleb y (b_of_Z (-2)) = true) \/ (Bleb (b_of_Z (-2)) y = true /\ Bleb y (b_of_Z 9) = true).
Proof. intros ys w' E. apply (C21_binary64 BOps exb_rng exb_instm (b_of_Z 9) (b_of_Z (-2)) _ _ ys w' ieee_BOps eq_refl eq_refl eq_refl E). Qed.

(** A NaN limit is no limit at all, and a NaN true value with a precision makes the
    measurement fail. *)
Example C21_nan_limit : exb_out (Instm None None None (Some (Some B754_nan, Some (b_of_Z 5)))) [b_of_Z (-1000); b_of_Z 6]
  = Some (map B2SF [b_of_Z (-1000); b_of_Z 5], 0).
Proof. vm_compute. reflexivity. Qed.
Example C21_nan_precision : measure (Instm None (Some 3%Z) None None) [B754_nan : b64t] (fun _ => 0) = (Err ValueError, fun _ => 0).
Proof. reflexivity. Qed.

(** ** C22 *)

(** With a positive precision and nothing else, every value is reported to that many
    significant figures, in exact arithmetic. *)
Theorem C22_significant_figures : forall (R0 : Rng R) n p (vals : list R) w, (0 < p)%Z ->
  exists ys, measure (Instm n (Some p) None None) vals w = (Ok ys, w) /\ length ys = length vals /\
    forall k x y, nth_error vals k = Some x -> nth_error ys k = Some y -> sig_figs p x y.
Proof.
  intros R0 n p vals w Hp. eexists. split; [now apply measure_sig|]. split; [apply map_length|].
  intros k x y Hx Hy. rewrite nth_error_map, Hx in Hy. injection Hy as <-. now apply reading_sig.
Qed.
Print Assumptions C22_significant_figures.

(** Measuring the reported values again changes nothing. *)
Theorem C22_idempotent : forall (R0 : Rng R) n p (vals : list R) w ys w', (0 < p)%Z ->
  measure (Instm n (Some p) None None) vals w = (Ok ys, w') ->
  measure (Instm n (Some p) None None) ys w' = (Ok ys, w').
Proof.
  intros R0 n p vals w ys w' Hp E. rewrite measure_sig in E by auto. injection E as <- <-. rewrite measure_sig by auto.
  do 2 f_equal. rewrite map_map. apply map_ext. intros. now apply reading_idem.
Qed.
Print Assumptions C22_idempotent.

(** A larger true value never reads smaller. *)
Theorem C22_monotone : forall (R0 : Rng R) n p (vals : list R) w ys w', (0 < p)%Z ->
  measure (Instm n (Some p) None None) vals w = (Ok ys, w') ->
  forall i j x x' y y', nth_error vals i = Some x -> nth_error vals j = Some x' -> nth_error ys i = Some y -> nth_error ys j = Some y' ->
    (x <= x')%R -> (y <= y')%R.
Proof.
  intros R0 n p vals w ys w' Hp E. rewrite measure_sig in E by auto. injection E as <- <-.
  intros i j x x' y y' Hx Hx' Hy Hy' L. rewrite nth_error_map in Hy, Hy'. rewrite Hx in Hy. rewrite Hx' in Hy'. injection Hy as <-. injection Hy' as <-.
  now apply reading_mono.
Qed.
Print Assumptions C22_monotone.

(** The same computation on exact rationals: 1234567 and 0.0009996 to three
    figures; 9996 becomes 10000, which then has another exponent. *)
Example C22_example : fst (measure (Instm None (Some 3%Z) None None) [1234567; 9996 # 10000000; -9996; 0; 5 # 1000]%Q (fun _ => 0))
  = Ok [1230000; 1 # 1000; -10000; 0; 1 # 200]%Q.
Proof. vm_compute. reflexivity. Qed.
(** A precision of zero does nothing, a negative one reports zero. *)
Example C22_zero_precision : fst (measure (Instm None (Some 0%Z) None None) [1234567]%Q (fun _ => 0)) = Ok [1234567]%Q.
Proof. reflexivity. Qed.
Example C22_negative_precision : fst (measure (Instm None (Some (-2)%Z) None None) [1234567]%Q (fun _ => 0)) = Ok [0]%Q.
Proof. vm_compute. reflexivity. Qed.

(** ** C23 *)

Theorem C23_order_of_effects : forall V (O : NumOps V) (R : Rng V) (i : instm V) vals w ys w',
  measure i vals w = (Ok ys, w') ->
  length ys = length vals /\
  exists es, (match in_err i with
              | Some r => reads r (length vals) w es w'
              | None => w' = w
              end) /\
    forall k x, nth_error vals k = Some x -> exists x' r y,
      (match in_err i with Some _ => exists ek, nth_error es k = Some ek /\ x' = nadd x ek | None => x' = x end) /\
      rounded (in_prec i) x' r /\ limited (in_range i) r y /\ nth_error ys k = Some y.
Proof. intros V O R. exact measure_ok. Qed.
Print Assumptions C23_order_of_effects.

Theorem C23_ideal_identity : forall V (O : NumOps V) (R : Rng V) n vals w,
  measure (Instm n None None None) vals w = (Ok vals, w).
Proof. intros V O R. exact measure_ideal. Qed.
Print Assumptions C23_ideal_identity.

(** Rounding before the error or limits before the rounding would give other
    values: 24 with error 3 to one figure is 30 (not 20 + 3), limited to 28. *)
Example C23_example : fst (measure (Instm None (Some 1%Z) (Some (Rv 0 (DNormal 0 1)%Q None)) (Some (None, Some 28%Q))) [24; 14]%Q (fun _ => 3))
  = Ok [28; 20]%Q.
Proof. vm_compute. reflexivity. Qed.

(** ** C58 *)

(** As long as no instrument is registered for 'meas', every other name gets the
    instrument registered for it or an ideal one, and 'meas' cannot be measured. *)
Theorem C58_instrument_lookup : forall V (O : NumOps V) (R : Rng V) eobjs vr iobjs ir (e : env V) p,
  reg_plain vr -> reg_plain ir -> env_init eobjs vr iobjs ir = Ok e -> given in_name iobjs ir "meas" = None ->
  (p <> "meas"%string ->
     match given in_name iobjs ir p with
     | Some i => exists i', meas_instm e p = Ok (FInstm i') /\ in_prec i' = in_prec i /\ in_err i' = in_err i /\ in_range i' = in_range i
     | None => exists i', meas_instm e p = Ok (FInstm i') /\ in_prec i' = None /\ in_err i' = None /\ in_range i' = None
     end) /\
  forall vals w, measure_with e "meas" vals w = (Err AttributeError, w).
Proof. intros V O R. exact instm_lookup. Qed.
Print Assumptions C58_instrument_lookup.

(** Every condition gets the variation model registered for it or a neutral one. *)
Theorem C58_variation_lookup : forall V (O : NumOps V) (R : Rng V) eobjs vr iobjs ir (e : env V) p,
  reg_plain vr -> reg_plain ir -> env_init eobjs vr iobjs ir = Ok e ->
  match given em_name eobjs vr p with
  | Some m => exists m', vrtn_mdl e p = Ok m' /\ em_op m' = em_op m /\ em_bat m' = em_bat m /\ em_chp m' = em_chp m /\ em_dev m' = em_dev m
  | None => exists m', vrtn_mdl e p = Ok m' /\ emdl_shows m' (ETold Offset None None None)
  end.
Proof.
  intros V O R eobjs vr iobjs ir e p Pv Pi E. destruct (env_init_get _ _ _ _ _ Pv Pi E p) as [G _]. unfold vrtn_mdl. rewrite G.
  destruct (given em_name eobjs vr p) as [m|]; cbn [option_map].
  - eexists. split; [reflexivity|]. destruct vr; cbn; auto.
  - destruct (emdl_init None None None "offset" None) as [m|] eqn:Em; [|discriminate Em]. exists m. split; auto.
    injection Em as <-. apply em_rep_shows. repeat split.
Qed.
Print Assumptions C58_variation_lookup.

(** An instrument for 'meas' breaks the measurement of everything. *)
Theorem C58_meas_breaks_everything : forall V (O : NumOps V) (R : Rng V) eobjs vr iobjs ir (e : env V) i p vals w,
  reg_plain vr -> reg_plain ir -> env_init eobjs vr iobjs ir = Ok e -> given in_name iobjs ir "meas" = Some i ->
  meas_instm e p = Err TypeError /\ measure_with e p vals w = (Err TypeError, w).
Proof. intros V O R. exact instm_broken. Qed.
Print Assumptions C58_meas_breaks_everything.

Definition exi (p : Z) : instm Q := Instm None (Some p) None None.
Definition exi_env : env Q := match env_init [] RNone [exi 2; exi 3] (RDict [("vth", 1); ("meas_instm", 0)]%string) with Ok e => e | _ => [] end.
Example C58_example : fst (measure_with exi_env "vth" [1234%Q] (fun _ => 0)) = Ok [1230%Q] /\
  fst (measure_with exi_env "meas_instm" [1234%Q] (fun _ => 0)) = Ok [1200%Q] /\
  fst (measure_with exi_env "other" [1234%Q] (fun _ => 0)) = Ok [1234%Q] /\
  fst (measure_with exi_env "meas" [1234%Q] (fun _ => 0)) = Err AttributeError.
Proof. repeat split; vm_compute; reflexivity. Qed.
Definition exv (q : Q) : emdl Q := match emdl_init None None (Some (Rv 0 (DDeter q) None)) "offset" None with Ok m => m | Err _ => EMdl None None n0 None (Rv 0 (DDeter q) None) true (Rv 0 (DDeter q) None) true (Rv 0 (DDeter q) None) true end.
Example C58_variation_example : forall e, env_init [exv 2; exv 5] (RDict [("temp", 1); ("vdd", 0)]%string) [exi 2] (RDict [("temp"%string, 0)]) = Ok e ->
  (exists m, vrtn_mdl e "temp" = Ok m /\ em_bat m = Rv 0 (DDeter 5%Q) None) /\
  (exists m, vrtn_mdl e "vdd" = Ok m /\ em_bat m = Rv 0 (DDeter 2%Q) None) /\
  (exists m, vrtn_mdl e "vgs" = Ok m /\ emdl_shows m (ETold Offset None None None)).
Proof.
  intros e E.
  assert (P1 : reg_plain (RDict [("temp", 1); ("vdd", 0)]%string)) by (split; repeat constructor; cbn; intuition discriminate).
  assert (P2 : reg_plain (RDict [("temp"%string, 0)])) by (split; repeat constructor; cbn; intuition discriminate).
  pose proof (C58_variation_lookup _ _ ToyRng _ _ _ _ e "temp" P1 P2 E) as (m1 & A1 & _ & B1 & _).
  pose proof (C58_variation_lookup _ _ ToyRng _ _ _ _ e "vdd" P1 P2 E) as (m2 & A2 & _ & B2 & _).
  pose proof (C58_variation_lookup _ _ ToyRng _ _ _ _ e "vgs" P1 P2 E) as (m3 & A3 & B3).
  split; [exists m1; auto|]. split; [exists m2; auto|exists m3; auto].
Qed.
Example C58_example_broken : forall e, env_init [] RNone [exi 2; exi 3] (RDict [("vth", 1); ("meas", 0)]%string) = Ok e ->
  fst (measure_with e "vth" [1234%Q] (fun _ => 0)) = Err TypeError.
Proof. intros e E. vm_compute in E. injection E as <-. vm_compute. reflexivity. Qed.

(** One instrument object registered under two names is only found under the last:
    the dictionary form renames the object itself. *)
Theorem C58_shared_object_refuted : exists (iobjs : list (instm Q)) ir e,
  env_init [] RNone iobjs ir = Ok e /\ given in_name iobjs ir "a" = Some (exi 2) /\
  meas_instm e "a" = Ok (FInstm (Instm (Some "a"%string) None None None)).
Proof. exists [exi 2], (RDict [("a", 0); ("b", 0)]%string). eexists. vm_compute. repeat split. Qed.
Print Assumptions C58_shared_object_refuted.
