(** Property theorems C13-C15, C18-C20, C56, C61, C62: layered stochastic
    variables, seeding and export. *)
From Coq Require Import Reals QArith.
From Verif Require Import M_Base M_Num M_NumR M_Nd M_RandVar M_Latent M_Toy S_Latent S_Dist L_Latent L_Dist.
Open Scope nat_scope.

(** Example data: a device distribution (generator 1) and a chip distribution
    (generator 2) over the toy generator, and a world. *)
Definition ex_dev : rv Q := Rv 1 (DNormal 10 1)%Q None.
Definition ex_chp : rv Q := Rv 2 (DNormal 0 1)%Q None.
Definition ex_w : world := fun g => 10 * g.

(** C13 *)
Theorem C13_layers_follow_assignments :
  forall V (O : NumOps V) (G : Rng V) dev chp lot deter name vt (o : lvar V) l,
  lvar_init dev chp lot deter name vt = Ok o ->
  exists t s, vt = type_name t /\
    tells_all tells (Told t deter dev chp lot) l (fst (run_assigns lvar_assign o l)) s /\
    lvar_shows (snd (run_assigns lvar_assign o l)) s.
Proof. intros V O G. exact latent_history. Qed.
Print Assumptions C13_layers_follow_assignments.

Theorem C13_construction :
  forall V (O : NumOps V) (dev chp lot : option (rv V)) deter name vt,
  ((forall t, vt <> type_name t) -> lvar_init dev chp lot deter name vt = Err InvalidTypeError) /\
  (forall t, vt = type_name t -> dev = None -> deter = None ->
     lvar_init dev chp lot deter name vt = Err UserConfigError) /\
  (forall t, vt = type_name t -> dev <> None \/ deter <> None ->
     exists o, lvar_init dev chp lot deter name vt = Ok o).
Proof.
  intros V O dev chp lot deter name vt.
  exact (conj (proj1 (lvar_init_errors dev chp lot deter name vt))
        (conj (proj2 (lvar_init_errors dev chp lot deter name vt))
              (fun t E Hn => eq_ind_r (fun s => exists o, lvar_init dev chp lot deter name s = Ok o)
                               (lvar_init_ok dev chp lot deter name t Hn) E))).
Qed.
Print Assumptions C13_construction.

(** Switching a scaling variable to offset, with an invalid type in between. *)
Example C13_example :
  match lvar_init (Some ex_dev) None None None (Some "x"%string) "scaling" with
  | Err _ => False
  | Ok o =>
      fst (run_assigns lvar_assign o [LType "offset"; LType "bogus"; LChp (Some ex_chp); LDev None])
        = [Ok tt; Err InvalidTypeError; Ok tt; Ok tt] /\
      let o' := snd (run_assigns lvar_assign o [LType "offset"; LType "bogus"; LChp (Some ex_chp); LDev None]) in
      fst (sample (lv_dev o') 2 ex_w) = Ok [0; 0]%Q /\ fst (sample (lv_chp o') 2 ex_w) = Ok [20; 21]%Q
  end.
Proof. vm_compute. auto. Qed.

(** C14 *)
Theorem C14_latent_samples :
  forall V (O : NumOps V) (G : Rng V) dev chp lot deter name vt (o : lvar V) l,
  lvar_init dev chp lot deter name vt = Ok o ->
  exists t s, vt = type_name t /\
    tells_all tells (Told t deter dev chp lot) l (fst (run_assigns lvar_assign o l)) s /\
    let o' := snd (run_assigns lvar_assign o l) in
    let ty := t_type s in
    forall D C L w, exists w3,
      (exists e x, gen_latent o' D C L w = (Err e, w3) /\ rejected x e /\
         (t_dev s = Some x \/ t_chp s = Some x \/ t_lot s = Some x)) \/
      (exists a lots chps devs w1 w2, gen_latent o' D C L w = (Ok a, w3) /\
         layer_reads ty (t_lot s) L w lots w1 /\
         layer_reads ty (t_chp s) (L * C) w1 chps w2 /\
         layer_reads ty (t_dev s) (L * C * D) w2 devs w3 /\
         nshape a = [L; C; D] /\ length (ndata a) = L * C * D /\
         forall l c d, l < L -> c < C -> d < D ->
         exists xd xc xl,
           nth_error devs ((l * C + c) * D + d) = Some xd /\
           nth_error chps (l * C + c) = Some xc /\
           nth_error lots l = Some xl /\
           elem3 a L C D l c d
             (combine ty (combine ty (match t_deter s with Some v => combine ty v xd | None => xd end) xc) xl)).
Proof. intros V O G. exact gen_latent_history. Qed.
Print Assumptions C14_latent_samples.

(** Two lots of two chips of two devices: 8 device draws, 4 chip draws. *)
Example C14_example :
  match lvar_init (Some ex_dev) (Some ex_chp) None (Some 100%Q) None "offset" with
  | Err _ => False
  | Ok o =>
      fst (gen_latent o 2 2 2 ex_w)
      = Ok (Nd [2; 2; 2] [140; 141; 143; 144; 146; 147; 149; 150]%Q) /\
      snd (gen_latent o 2 2 2 ex_w) 1 = 18 /\ snd (gen_latent o 2 2 2 ex_w) 2 = 24
  end.
Proof. vm_compute. auto. Qed.

(** C15 *)
Theorem C15_env_layers_follow_assignments :
  forall V (O : NumOps V) (G : Rng V) dev chp bat vt name (o : emdl V) l,
  emdl_init dev chp bat vt name = Ok o ->
  exists t s, vt = type_name t /\
    tells_all etells (ETold t dev chp bat) l (fst (run_assigns emdl_assign o l)) s /\
    emdl_shows (snd (run_assigns emdl_assign o l)) s.
Proof. intros V O G. exact env_history. Qed.
Print Assumptions C15_env_layers_follow_assignments.

Theorem C15_env_samples :
  forall V (O : NumOps V) (G : Rng V) dev chp bat name vt (o : emdl V) l,
  emdl_init dev chp bat vt name = Ok o ->
  exists t s, vt = type_name t /\
    tells_all etells (ETold t dev chp bat) l (fst (run_assigns emdl_assign o l)) s /\
    let o' := snd (run_assigns emdl_assign o l) in
    let ty := et_type s in
    forall base D C L w, exists w3,
      (exists e x, gen_env o' base D C L w = (Err e, w3) /\ rejected x e /\
         (et_dev s = Some x \/ et_chp s = Some x \/ et_bat s = Some x)) \/
      (exists a xb chps devs w1 w2, gen_env o' base D C L w = (Ok a, w3) /\
         layer_reads ty (et_bat s) 1 w [xb] w1 /\
         layer_reads ty (et_chp s) (L * C) w1 chps w2 /\
         layer_reads ty (et_dev s) (L * C * D) w2 devs w3 /\
         nshape a = [L; C; D] /\ length (ndata a) = L * C * D /\
         forall l c d, l < L -> c < C -> d < D ->
         exists xd xc,
           nth_error devs ((l * C + c) * D + d) = Some xd /\
           nth_error chps (l * C + c) = Some xc /\
           elem3 a L C D l c d (combine ty (combine ty (combine ty base xb) xc) xd)).
Proof. intros V O G. exact gen_env_history. Qed.
Print Assumptions C15_env_samples.

Theorem C15_no_layers_gives_base :
  forall V (O : NumOps V) (G : Rng V) vt name (o : emdl V) base D C L w,
  neutral_laws (V := V) -> emdl_init None None None vt name = Ok o ->
  exists a, gen_env o base D C L w = (Ok a, w) /\ nshape a = [L; C; D] /\ length (ndata a) = L * C * D /\
    forall l c d, l < L -> c < C -> d < D -> elem3 a L C D l c d base.
Proof. intros V O G. exact gen_env_ideal. Qed.
Print Assumptions C15_no_layers_gives_base.

Example C15_neutral_laws_real : neutral_laws (V := R).
Proof. split; intros x; cbn; unfold Q2R; cbn; field. Qed.
Example C15_example :
  match emdl_init (Some ex_dev) (Some ex_chp) None "offset" None with
  | Err _ => False
  | Ok o => fst (gen_env o 100%Q 2 1 2 ex_w) = Ok (Nd [2; 1; 2] [140; 141; 143; 144]%Q)
  end.
Proof. vm_compute. auto. Qed.

(** C18 *)
Theorem C18_seed_reproducible :
  forall V (O : NumOps V) (G : Rng V) seed_state ent1 ent2 seed s1 s2 (d : dist V) g1 g2 nm1 nm2 ns ms w1 w2 xss w1',
  seed <> 0%Z ->
  init_gen seed_state ent1 (Some seed) = Ok s1 -> init_gen seed_state ent2 (Some seed) = Ok s2 ->
  w1 g1 = s1 -> w2 g2 = s2 ->
  list_sum ns = list_sum ms -> ns <> [] -> ms <> [] ->
  sample_calls (Rv g1 d nm1) ns w1 = (Ok xss, w1') ->
  exists yss w2', sample_calls (Rv g2 d nm2) ms w2 = (Ok yss, w2') /\ concat yss = concat xss.
Proof. intros V O G. exact seed_reproducible. Qed.
Print Assumptions C18_seed_reproducible.

Example C18_example :
  let ss := fun z => Z.to_nat z in
  init_gen ss 77 (Some 5%Z) = Ok 5 /\ init_gen ss 88 (Some 5%Z) = Ok 5 /\
  fst (sample_calls (Rv 1 (DNormal 0 1)%Q None) [2; 1] (fun _ => 5)) = Ok [[5; 6]; [7]]%Q /\
  fst (sample_calls (Rv 9 (DNormal 0 1)%Q None) [0; 3] (fun _ => 5)) = Ok [[]; [5; 6; 7]]%Q.
Proof. vm_compute. auto. Qed.

(** Seed 0 means no seed: two variables built with it can differ. *)
Theorem C18_seed_zero_refuted :
  exists (seed_state : Z -> nat) ent1 ent2 s1 s2 (d : dist Q) g xs ys w1 w2,
  init_gen seed_state ent1 (Some 0%Z) = Ok s1 /\ init_gen seed_state ent2 (Some 0%Z) = Ok s2 /\
  sample (Rv g d None) 1 (fun _ => s1) = (Ok xs, w1) /\ sample (Rv g d None) 1 (fun _ => s2) = (Ok ys, w2) /\
  xs <> ys.
Proof.
  exists Z.to_nat, 3, 4, 3, 4, (DNormal 0 1)%Q, 1. do 4 eexists.
  split; [reflexivity|]. split; [reflexivity|]. split; [reflexivity|]. split; [reflexivity|]. discriminate.
Qed.
Print Assumptions C18_seed_zero_refuted.

(** C19 *)
Theorem C19_export_restores :
  forall V (O : NumOps V) (o : lvar V) target x o',
  cbi_export o target = (Ok x, o') ->
  (forall v, lv_deter o = Some v -> neqb v n0 = false ->
     forall mu sg, rv_dist (lv_dev o) = DNormal mu sg -> neqb mu n0 = false) ->
  o' = o.
Proof. intros V O. exact export_restores. Qed.
Print Assumptions C19_export_restores.

Theorem C19_export_recentres :
  forall V (O : NumOps V) (o : lvar V) target x o' v mu sg t,
  cbi_export o target = (Ok x, o') -> lv_type o = Some t ->
  lv_deter o = Some v -> neqb v n0 = false -> rv_dist (lv_dev o) = DNormal mu sg -> neqb mu n0 = true ->
  o' = with_dev o (Rv (rv_gen (lv_dev o)) (DNormal (combine t v mu) sg) (rv_name (lv_dev o))).
Proof. intros V O. exact export_recentres. Qed.
Print Assumptions C19_export_recentres.

(** A variable centred on 0 with deter_val 5: the export changes later samples. *)
Theorem C19_export_side_effect_refuted :
  exists (o : lvar Q) x o' w a b,
  lvar_init (Some ex_chp) None None (Some 5%Q) (Some "x"%string) "offset" = Ok o /\
  cbi_export o "pymc" = (Ok x, o') /\
  fst (gen_latent o 1 1 1 w) = Ok a /\ fst (gen_latent o' 1 1 1 w) = Ok b /\ a <> b.
Proof.
  do 3 eexists. exists ex_w. do 2 eexists. split; [reflexivity|]. split; [vm_compute; reflexivity|].
  split; [vm_compute; reflexivity|]. split; [vm_compute; reflexivity|]. discriminate.
Qed.
Print Assumptions C19_export_side_effect_refuted.

Example C19_example_restores :
  match lvar_init (Some ex_dev) None None (Some 5%Q) (Some "x"%string) "offset" with
  | Err _ => False
  | Ok o => cbi_export o "pymc" = (Ok (Cbi Offset (InPymc (Some "x"%string) (MNormal 15 1)%Q) None None), o)
  end.
Proof. vm_compute. reflexivity. Qed.

(** C61: an export that raises after the centre was changed leaves it changed,
    whatever the centre was (here: a deterministic chip layer cannot be exported). *)
Theorem C61_failed_export_side_effect_refuted :
  exists (o : lvar Q) o' w a b,
  lvar_init (Some ex_dev) (Some (Rv 3 (DDeter 1%Q) None)) None (Some 5%Q) (Some "x"%string) "offset" = Ok o /\
  cbi_export o "pymc" = (Err NotImplementedErr, o') /\
  fst (gen_latent o 1 1 1 w) = Ok a /\ fst (gen_latent o' 1 1 1 w) = Ok b /\ a <> b.
Proof.
  do 2 eexists. exists ex_w. do 2 eexists. split; [reflexivity|]. split; [vm_compute; reflexivity|].
  split; [vm_compute; reflexivity|]. split; [vm_compute; reflexivity|]. discriminate.
Qed.
Print Assumptions C61_failed_export_side_effect_refuted.

(** C62 *)
Theorem C62_export_names :
  forall V (O : NumOps V) dev chp lot deter n vt (o : lvar V) target x o',
  lvar_init dev chp lot deter (Some n) vt = Ok o -> cbi_export o target = (Ok x, o') ->
  form_name (cbi_dev x) = Some (match chp, lot with None, None => n | _, _ => (n ++ "_dev")%string end) /\
  (match cbi_chp x with Some c => chp <> None /\ form_name c = Some (n ++ "_chp")%string | None => chp = None end) /\
  (match cbi_lot x with Some c => lot <> None /\ form_name c = Some (n ++ "_lot")%string | None => lot = None end) /\
  NoDup (map form_name (cbi_parts x)).
Proof. intros V O. exact export_distinct. Qed.
Print Assumptions C62_export_names.

(** Names are not propagated to a layer assigned after naming: the export of a
    named variable is then nameless. *)
Theorem C62_late_layer_unnamed_refuted :
  exists (o : lvar Q) x o',
  lvar_init (Some ex_dev) None None None (Some "x"%string) "offset" = Ok o /\
  cbi_export (snd (lvar_assign o (LDev (Some (Rv 7 (DNormal 1 1)%Q None))))) "pymc" = (Ok x, o') /\
  form_name (cbi_dev x) = None.
Proof. do 3 eexists. split; [reflexivity|]. split; [vm_compute; reflexivity|]. reflexivity. Qed.
Print Assumptions C62_late_layer_unnamed_refuted.

Example C62_example :
  match lvar_init (Some ex_dev) (Some ex_chp) None None (Some "x"%string) "offset" with
  | Err _ => False
  | Ok o => fst (cbi_export o "pyro") =
      Ok (Cbi Offset (InPyro (Some "x_dev"%string) (YNormal 10 1)%Q)
                     (Some (InPyro (Some "x_chp"%string) (YNormal 0 1)%Q)) None)
  end.
Proof. vm_compute. reflexivity. Qed.

(** C20 *)
Theorem C20_export_mean_and_spread :
  forall (o : lvar R) target x o' t v mu sg xs,
  cbi_export o target = (Ok x, o') -> lv_type o = Some t -> lv_deter o = Some v -> v <> 0%R ->
  rv_dist (lv_dev o) = DNormal mu sg -> (0 <= sg)%R ->
  xs <> [] -> mean xs = mu -> var xs = (sg ^ 2)%R ->
  exists m s, (cbi_dev x = InPymc (rv_name (lv_dev o)) (MNormal m s) \/
               cbi_dev x = InPyro (rv_name (lv_dev o)) (YNormal m s)) /\
    m = mean (map (combine t v) xs) /\
    ((s ^ 2)%R = var (map (combine t v) xs) <-> (t = Offset \/ Rabs v = 1%R \/ sg = 0%R)).
Proof. exact export_spread. Qed.
Print Assumptions C20_export_mean_and_spread.

(** A sample with mean 1 and variance 1, and a scaling variable with value 5. *)
Example C20_example_sample : mean [0; 2]%R = 1%R /\ var [0; 2]%R = (1 ^ 2)%R.
Proof. assert (E : mean [0; 2]%R = 1%R) by (unfold mean; cbn; field). split; auto. unfold var. rewrite E. cbn. field. Qed.
Example C20_example_export :
  match lvar_init (Some (Rv 1 (DNormal 10 2)%Q None)) None None (Some 5%Q) (Some "x"%string) "scaling" with
  | Err _ => False
  | Ok o => fst (cbi_export o "pymc") = Ok (Cbi Scaling (InPymc (Some "x"%string) (MNormal 50 2)%Q) None None)
  end.
Proof. vm_compute. reflexivity. Qed.

(** C56 *)
Theorem C56_parameter_translation :
  forall d : dist R, admissible d ->
  exists n m y, params_numpy d = Ok n /\ params_pymc d = Ok m /\ params_pyro d = Ok y /\
    np_mean n = pymc_mean m /\ np_mean n = pyro_mean y /\
    np_var n = pymc_var m /\ np_var n = pyro_var y /\
    (forall x, np_density n x = pymc_density m x) /\ (forall x, np_density n x = pyro_density y x).
Proof. exact params_agree. Qed.
Print Assumptions C56_parameter_translation.

Theorem C56_deterministic :
  forall V (O : NumOps V) (G : Rng V) (v : V) g nm n w,
  sample (Rv g (DDeter v) nm) n w = (Ok (repeat v n), w) /\
  params_numpy (DDeter v) = Err NotImplementedErr /\
  (forall target, get_cbi_form (Rv g (DDeter v) nm) target = Err NotImplementedErr).
Proof. intros V O G. exact deterministic_all. Qed.
Print Assumptions C56_deterministic.

Example C56_example : admissible (DGamma 2 4)%R /\ params_numpy (DGamma 2 4)%Q = Ok (NGamma 2 (1 # 4))%Q.
Proof. split; [cbn; split; apply IZR_lt; reflexivity|reflexivity]. Qed.
