(** C73: models are built from the objects they are given. *)
From Verif Require Import M_Base M_Build S_Device S_Build L_Base L_Build.
Open Scope nat_scope.

(** A new degraded parameter has exactly the mechanisms and latent variables it was
    given, in order, and finds each of them again by name -- unless the name of a
    mechanism clashes with that of a latent variable: then the latent variable is
    found in its place. *)
Theorem C73_a_parameter_finds_its_parts :
  forall X Y Z (h h' : objs X Y Z) a d name unit lats what,
  was_given (mech_name h) a d -> dwf lats -> new_deg_prm h a name unit lats what = Ok h' ->
  exists p, ob_prms h' = ob_prms h ++ [p] /\
  (po_deg p = true /\ po_name p = name /\ po_unit p = unit /\ po_what p = what /\ po_mechs p = dkeys d /\ po_lats p = dkeys lats) /\
  (forall x j, In (x, j) lats -> latent_var p x = Some (RLat j)) /\
  (forall k i, In (k, i) d -> (forall x, In x (dkeys lats) -> ~ clash k x) -> mech_mdl p k = Some (RMech i)) /\
  (forall k x j, In (x, j) lats -> clash k x -> mech_mdl p k = Some (RLat j)).
Proof. intros X Y Z. exact new_deg_prm_spec. Qed.
Print Assumptions C73_a_parameter_finds_its_parts.

(** Other objects change only in their name: a mechanism given in a dictionary is
    renamed to the last key it was given under, a latent variable without a name
    takes the first, and everything else stays as it was. *)
Theorem C73_only_names_change :
  forall X Y Z (h h' : objs X Y Z) a d name unit lats what,
  was_given (mech_name h) a d -> (forall x, In x (dkeys lats) -> x <> ""%string) ->
  new_deg_prm h a name unit lats what = Ok h' ->
  (forall i, ~ In i (map snd d) -> nth_error (ob_mechs h') i = nth_error (ob_mechs h) i) /\
  (forall i k o, last_key d i k -> nth_error (ob_mechs h) i = Some o ->
     nth_error (ob_mechs h') i = Some (MechObj (Some k) (mo_unit o) (mo_std o) (mo_what o))) /\
  (forall i o, nth_error (ob_lats h) i = Some o -> named (lo_name o) = true \/ ~ In i (map snd lats) ->
     nth_error (ob_lats h') i = Some o) /\
  (forall i o k, nth_error (ob_lats h) i = Some o -> named (lo_name o) = false -> first_key lats i k ->
     nth_error (ob_lats h') i = Some (LatObj (Some k) (lo_what o))).
Proof. intros X Y Z. exact new_deg_prm_names. Qed.
Print Assumptions C73_only_names_change.

(** Construction fails with UserConfigError exactly for a single part without a name. *)
Theorem C73_failures :
  forall X Y Z (h : objs X Y Z),
  (forall a name unit lats what e, new_deg_prm h a name unit lats what = Err e ->
     exists i, a = MOne i /\ (nth_error (ob_mechs h) i = None \/ (e = UserConfigError /\ named (mech_name h i) = false))) /\
  (forall i o name unit lats what, nth_error (ob_mechs h) i = Some o -> named (mo_name o) = false ->
     new_deg_prm h (MOne i) name unit lats what = Err UserConfigError) /\
  (forall a name unit e, new_device h a name unit = Err e ->
     exists i, a = MOne i /\ (nth_error (ob_prms h) i = None \/ (e = UserConfigError /\ named (prm_name h i) = false))) /\
  (forall i o name unit, nth_error (ob_prms h) i = Some o -> named (po_name o) = false ->
     new_device h (MOne i) name unit = Err UserConfigError).
Proof.
  intros X Y Z h. split; [exact (new_deg_prm_fails h)|]. split; [exact (new_deg_prm_unnamed h)|].
  split; [exact (new_device_fails h)|exact (new_device_unnamed h)].
Qed.
Print Assumptions C73_failures.

Theorem C73_a_circuit_parameter_finds_its_parts :
  forall X Y Z (h : objs X Y Z) name lats what, dwf lats ->
  exists p, ob_prms (new_circ_prm h name lats what) = ob_prms h ++ [p] /\ ob_mechs (new_circ_prm h name lats what) = ob_mechs h /\
  po_deg p = false /\ po_name p = name /\ po_what p = what /\ po_lats p = dkeys lats /\
  forall x j, In (x, j) lats -> latent_var p x = Some (RLat j).
Proof. intros X Y Z. exact new_circ_prm_spec. Qed.
Print Assumptions C73_a_circuit_parameter_finds_its_parts.

(** A device has exactly the parameters it was given, in order, finds each of them
    again by name, and changes nothing of them but their name. *)
Theorem C73_a_device_finds_its_parameters :
  forall X Y Z (h h' : objs X Y Z) a d name unit v,
  was_given (prm_name h) a d -> new_device h a name unit = Ok (h', v) ->
  vo_name v = name /\ vo_unit v = unit /\ vo_prms v = dkeys d /\
  (forall k i, In (k, i) d -> prm_mdl v k = Some i) /\
  (forall i, ~ In i (map snd d) -> nth_error (ob_prms h') i = nth_error (ob_prms h) i) /\
  (forall i k, last_key d i k -> nth_error (ob_prms h') i = option_map (set_prm_name k) (nth_error (ob_prms h) i)) /\
  (forall i p, nth_error (ob_prms h) i = Some p -> exists q, nth_error (ob_prms h') i = Some q /\ same_prm p q) /\
  ob_lats h' = ob_lats h.
Proof. intros X Y Z. exact new_device_spec. Qed.
Print Assumptions C73_a_device_finds_its_parameters.

(** The time unit of a mechanism is its own, else that of the first parameter of the
    device that has it, else that of the device, else hours.  A mechanism no
    parameter has, and one of a subclass, keep what they had. *)
Theorem C73_time_units :
  forall X Y Z (h h' : objs X Y Z) a d name unit v ps i,
  was_given (prm_name h) a d -> new_device h a name unit = Ok (h', v) ->
  Forall2 (fun ki p => nth_error (ob_prms h) (snd ki) = Some p) d ps ->
  (forall l1 p l2 o, ps = l1 ++ p :: l2 -> nth_error (ob_mechs h) i = Some o -> mo_std o = true -> uses p i ->
     (forall q, In q l1 -> ~ uses q i) ->
     nth_error (ob_mechs h') i = Some (MechObj (mo_name o) (resolved (mo_unit o) (po_unit p) unit) true (mo_what o))) /\
  ((forall p, In p ps -> ~ uses p i) \/ (forall o, nth_error (ob_mechs h) i = Some o -> mo_std o = false) ->
   nth_error (ob_mechs h') i = nth_error (ob_mechs h) i).
Proof.
  intros X Y Z h h' a d name unit v ps i G E F. split.
  - intros l1 p l2 o -> Ho S U N. exact (new_device_unit_first _ _ _ _ _ _ _ _ _ _ _ _ G E F Ho S U N).
  - exact (new_device_unit_other _ _ _ _ _ _ _ _ _ G E F).
Qed.
Print Assumptions C73_time_units.

(** A device with two parameters that share mechanism 0 (given under three names) and
    latent variable 0; mechanism 1 brings its own name, mechanism 2 is of a subclass. *)
Definition bd_start : objs nat nat nat :=
  Objs [LatObj None 10; LatObj (Some "mine"%string) 11]
       [MechObj None None true 20; MechObj (Some "own"%string) (Some "s"%string) true 21; MechObj (Some "sub"%string) None false 22] [].
Definition bd_built : res (objs nat nat nat * devobj) :=
  rbind (new_deg_prm bd_start (MDict [("a", 0); ("sub", 2); ("b", 0)]%string) None (Some "d"%string) [("x", 0); ("y", 1); ("z", 0)]%string 30) (fun h1 =>
  rbind (new_deg_prm h1 (MDict [("c", 0); ("own", 1)]%string) (Some "q"%string) (Some "ms"%string) [] 31) (fun h2 =>
  new_device h2 (MDict [("p1", 0); ("p2", 1)]%string) None None)).

Example C73_example : exists h v,
  bd_built = Ok (h, v) /\
  ob_mechs h = [MechObj (Some "c"%string) (Some "d"%string) true 20; MechObj (Some "own"%string) (Some "s"%string) true 21;
                MechObj (Some "sub"%string) None false 22] /\
  ob_lats h = [LatObj (Some "x"%string) 10; LatObj (Some "mine"%string) 11] /\
  map (fun k => prm_mdl v k) ["p1"; "p2"; "p3"]%string = [Some 0; Some 1; None] /\
  exists p1 p2, ob_prms h = [p1; p2] /\ po_name p1 = Some "p1"%string /\
    map (mech_mdl p1) ["a"; "sub"; "b"; "own"]%string = [Some (RMech 0); Some (RMech 2); Some (RMech 0); None] /\
    map (latent_var p1) ["x"; "y"; "z"]%string = [Some (RLat 0); Some (RLat 1); Some (RLat 0)].
Proof. do 2 eexists. split; [reflexivity|]. repeat split. do 2 eexists. repeat split. Qed.

(** Names that clash: the mechanism cannot be found any more. *)
Theorem C73_clashing_names_refuted : exists (h h' : objs nat nat nat) d lats p k i,
  dwf d /\ dwf lats /\ new_deg_prm h (MDict d) None None lats 0 = Ok h' /\ ob_prms h' = [p] /\
  In (k, i) d /\ ~ In k (dkeys lats) /\ mech_mdl p k <> Some (RMech i).
Proof.
  exists bd_start. eexists. exists [("latent_bti", 0); ("hci", 1)]%string. exists [("bti_mdl", 1)]%string. eexists.
  exists "latent_bti"%string, 0. split; [repeat constructor; cbn; intuition discriminate|].
  split; [repeat constructor; cbn; auto|]. split; [reflexivity|]. split; [reflexivity|]. split; [cbn; auto|].
  split; [cbn; intuition discriminate|]. cbv. discriminate.
Qed.
Print Assumptions C73_clashing_names_refuted.
