(** Lemmas about the construction of parameter and device models. *)
From Coq Require Import Lia.
From Verif Require Import M_Base M_Nd M_Num M_RandVar M_Latent M_Time M_Device M_Build S_Device S_Build L_Base L_Device L_Env.
Open Scope nat_scope.

(** ** Attribute names *)
Lemma app_len a b : String.length (a ++ b)%string = String.length a + String.length b.
Proof. induction a; cbn; auto. Qed.
Lemma app_assoc_s a b c : ((a ++ b) ++ c)%string = (a ++ b ++ c)%string.
Proof. induction a; cbn; congruence. Qed.
Lemma mdl_inj k k' : ("_" ++ k ++ "_mdl")%string = ("_" ++ k' ++ "_mdl")%string -> k = k'.
Proof. cbn. intros E. injection E as E. exact (append_inj_l "_mdl" _ _ E). Qed.
Lemma lat_inj x x' : ("_latent_" ++ x)%string = ("_latent_" ++ x')%string -> x = x'.
Proof. cbn. intros E. injection E as E. exact E. Qed.
Lemma clash_names k x : ("_" ++ k ++ "_mdl")%string = ("_latent_" ++ x)%string <-> clash k x.
Proof.
  split.
  - cbn. intros E. injection E as E.
    do 6 (destruct k as [|? k]; [cbn in E; discriminate E|cbn in E; injection E as -> E]).
    destruct k as [|? k]; [cbn in E; injection E as <-; exact cl_bare|cbn in E; injection E as -> <-; exact (cl_long k)].
  - intros [|y]; [reflexivity|]. cbn. now rewrite ?app_assoc_s.
Qed.

(** ** Updating an object *)
Lemma upd_nth {A} (l : list A) i f j : nth_error (upd l i f) j = if Nat.eqb i j then option_map f (nth_error l j) else nth_error l j.
Proof.
  revert i j. induction l as [|x l IH]; intros [|i] [|j]; cbn; auto.
  destruct (Nat.eqb i j); reflexivity.
Qed.
Lemma upd_len {A} (l : list A) i f : length (upd l i f) = length l.
Proof. revert i. induction l as [|x l IH]; intros [|i]; cbn; auto. Qed.

Section L.
Context {X Y Z : Type}.

(** ** Latent variables *)
Lemma add_latents_attrs (given : dict nat) (lats : list (latobj X)) attrs names :
  dwf given ->
  let '(lats', (attrs', names')) := fold_left add_latent given (lats, (attrs, names)) in
  names' = names ++ dkeys given /\
  (forall k, dget attrs' k = match dget given (String.substring 8 (String.length k) k) with
                             | Some i => if String.eqb k ("_latent_" ++ String.substring 8 (String.length k) k)
                                         then Some (RLat i) else dget attrs k
                             | None => dget attrs k end).
Proof.
  revert lats attrs names. induction given as [|[x i] given IH]; intros lats attrs names W.
  { cbn. rewrite app_nil_r. split; auto. }
  cbn [fold_left add_latent]. inversion W as [|? ? N W']; subst.
  specialize (IH (upd lats i (fun o => if named (lo_name o) then o else LatObj (Some x) (lo_what o)))
                 (dset attrs ("_latent_" ++ x) (RLat i)) (names ++ [x]) W').
  destruct (fold_left _ _ _) as (lats' & attrs' & names'). destruct IH as (-> & IH).
  split; [rewrite <- app_assoc; reflexivity|]. intros k. rewrite IH, dget_dset. cbn [dget].
  set (y := String.substring 8 (String.length k) k).
  destruct (String.eqb_spec ("_latent_" ++ x) k) as [Q|Q].
  - assert (y = x) as ->.
    { unfold y. rewrite <- Q. cbn. clear. induction x; cbn; auto. f_equal. exact IHx. }
    rewrite String.eqb_refl. apply dget_None_keys in N. rewrite N.
    destruct (String.eqb_spec k ("_latent_" ++ x)); congruence.
  - destruct (String.eqb_spec y x) as [->|P].
    + destruct (String.eqb_spec k ("_latent_" ++ x)) as [R|R]; [congruence|].
      destruct (dget given x); reflexivity.
    + reflexivity.
Qed.

Lemma sub_lat x : String.substring 8 (String.length ("_latent_" ++ x)) ("_latent_" ++ x) = x.
Proof. cbn. induction x; cbn; auto. f_equal. exact IHx. Qed.

Lemma add_latents_spec (given : dict nat) (lats : list (latobj X)) attrs lats' attrs' names' :
  dwf given -> add_latents lats attrs given = (lats', (attrs', names')) ->
  names' = dkeys given /\
  (forall x i, In (x, i) given -> dget attrs' ("_latent_" ++ x) = Some (RLat i)) /\
  (forall k, (forall x, In x (dkeys given) -> k <> ("_latent_" ++ x)%string) -> dget attrs' k = dget attrs k).
Proof.
  intros W E. unfold add_latents in E. pose proof (add_latents_attrs given lats attrs [] W) as K. rewrite E in K.
  destruct K as (-> & K). split; auto. split.
  - intros x i Hx. rewrite K, sub_lat, (dget_wf_In _ _ _ W Hx), String.eqb_refl. reflexivity.
  - intros k Hk. rewrite K. destruct (dget given _) as [i|] eqn:G; auto.
    destruct (String.eqb_spec k ("_latent_" ++ String.substring 8 (String.length k) k)) as [Q|]; auto.
    exfalso. apply (Hk (String.substring 8 (String.length k) k)); auto.
    apply dget_In in G. apply (in_map fst) in G. exact G.
Qed.

Lemma add_latents_names (given : dict nat) (lats : list (latobj X)) attrs names lats' r :
  fold_left add_latent given (lats, (attrs, names)) = (lats', r) ->
  (forall x, In x (dkeys given) -> x <> ""%string) ->
  forall i o, nth_error lats i = Some o ->
    (named (lo_name o) = true \/ ~ In i (map snd given) -> nth_error lats' i = Some o) /\
    (forall k, named (lo_name o) = false -> first_key given i k -> nth_error lats' i = Some (LatObj (Some k) (lo_what o))).
Proof.
  revert lats attrs names. induction given as [|[x j] given IH]; intros lats attrs names E Ne i o Ho.
  { cbn in E. injection E as <- _. split; auto. intros k _ (d1 & d2 & Q & _). destruct d1; discriminate Q. }
  cbn [fold_left add_latent] in E. specialize (IH _ _ _ E (fun y Hy => Ne y (or_intror Hy)) i).
  rewrite upd_nth, Ho in IH. destruct (Nat.eqb_spec j i) as [->|Q].
  - cbn [option_map] in IH. split.
    + intros [Nm|Nm]; [|cbn in Nm; tauto]. rewrite Nm in IH. destruct (IH o eq_refl) as [IH1 _]. auto.
    + intros k Nm (d1 & d2 & Q & N). rewrite Nm in IH.
      destruct d1 as [|[y z] d1].
      * injection Q as -> _. destruct (IH _ eq_refl) as [IH1 _]. apply IH1. left. cbn.
        assert (K : k <> ""%string) by (apply Ne; cbn; auto). destruct k; [congruence|reflexivity].
      * injection Q as -> -> _. cbn in N. tauto.
  - destruct (IH o eq_refl) as [IH1 IH2]. split.
    + intros [Nm|Nm]; apply IH1; cbn in Nm; tauto.
    + intros k Nm (d1 & d2 & P & N). apply IH2; auto. destruct d1 as [|[y z] d1]; [injection P as -> -> _; congruence|].
      injection P as -> -> ->. exists d1, d2. split; auto. cbn in N. tauto.
Qed.

(** ** Mechanisms *)
Definition rename (k : string) (o : mechobj Y) := MechObj (Some k) (mo_unit o) (mo_std o) (mo_what o).
Lemma last_key_cons (d : list (string * nat)) i j x k : last_key ((x, j) :: d) i k <->
  last_key d i k \/ (j = i /\ x = k /\ ~ In i (map snd d)).
Proof.
  split.
  - intros (d1 & d2 & E & N). destruct d1 as [|[y z] d1]; [injection E as -> -> ->; auto|].
    injection E as -> -> ->. left. exists d1, d2. auto.
  - intros [(d1 & d2 & -> & N)|(-> & -> & N)]; [exists ((x, j) :: d1), d2; auto|exists [], d; auto].
Qed.

Lemma add_mech_fold (d : dict nat) : forall (mechs : list (mechobj Y)) attrs names mechs' attrs' names',
  fold_left add_mech d (mechs, (attrs, names)) = (mechs', (attrs', names')) -> dwf d ->
  names' = names ++ dkeys d /\
  (forall k i, In (k, i) d -> dget attrs' ("_" ++ k ++ "_mdl") = Some (RMech i)) /\
  (forall a, (forall k, In k (dkeys d) -> a <> ("_" ++ k ++ "_mdl")%string) -> dget attrs' a = dget attrs a) /\
  (forall i, ~ In i (map snd d) -> nth_error mechs' i = nth_error mechs i) /\
  (forall i k, last_key d i k -> nth_error mechs' i = option_map (rename k) (nth_error mechs i)).
Proof.
  induction d as [|[x j] d IH]; intros mechs attrs names mechs' attrs' names' E W.
  { cbn in E. injection E as <- <- <-. rewrite app_nil_r. repeat split; auto; [intros k i []|].
    intros i k (d1 & d2 & Q & _). destruct d1; discriminate Q. }
  cbn [fold_left add_mech] in E. inversion W as [|? ? N W']; subst.
  destruct (IH _ _ _ _ _ _ E W') as (-> & A & B & C & D). split; [rewrite <- app_assoc; reflexivity|]. split; [|split; [|split]].
  - intros k i [Q|Hk]; [|now apply A]. injection Q as -> ->. rewrite B, dget_dset_eq; auto.
    intros k' Hk' P. apply mdl_inj in P. subst. contradiction.
  - intros a Ha. rewrite B; [|intros k Hk; apply Ha; cbn; auto]. apply dget_dset_neq. intros P. apply (Ha x); cbn; auto.
  - intros i Hi. cbn in Hi. rewrite C by tauto. rewrite upd_nth. destruct (Nat.eqb_spec j i); tauto.
  - intros i k Hk. apply last_key_cons in Hk as [Hk|(-> & -> & Hn)].
    + rewrite (D _ _ Hk), upd_nth. destruct (Nat.eqb j i); auto. destruct (nth_error mechs i); reflexivity.
    + rewrite (C _ Hn), upd_nth, Nat.eqb_refl. reflexivity.
Qed.

Lemma was_given_wf nm a d : was_given nm a d -> dwf d.
Proof. intros [d' W|i k _ _]; auto. repeat constructor. cbn. auto. Qed.

Lemma add_mechs_spec (h : objs X Y Z) a d mechs' attrs names : was_given (mech_name h) a d ->
  add_mechs (ob_mechs h) a = Ok (mechs', (attrs, names)) ->
  names = dkeys d /\
  (forall k i, In (k, i) d -> dget attrs ("_" ++ k ++ "_mdl") = Some (RMech i)) /\
  (forall i, ~ In i (map snd d) -> nth_error mechs' i = nth_error (ob_mechs h) i) /\
  (forall i k, last_key d i k -> nth_error mechs' i = option_map (rename k) (nth_error (ob_mechs h) i)).
Proof.
  intros [d' W|i k Nk Ne] E; cbn in E.
  - injection E as E. destruct (add_mech_fold _ _ _ _ _ _ _ E W) as (-> & A & _ & C & D). auto.
  - unfold mech_name in Nk. destruct (nth_error (ob_mechs h) i) as [o|] eqn:Ei; [|discriminate E].
    rewrite Nk in E. destruct k as [|c k]; [congruence|]. injection E as <- <- <-.
    split; auto. split; [|split]; auto.
    + intros k' i' [Q|[]]. injection Q as <- <-. cbn [dget]. rewrite String.eqb_refl. reflexivity.
    + intros i' k' (d1 & d2 & Q & _). destruct d1 as [|? d1]; [|destruct d1; discriminate Q]. injection Q as <- <- _.
      rewrite Ei. cbn. f_equal. destruct o as [n u s y]. cbn in Nk |- *. unfold rename. cbn. congruence.
Qed.

Theorem new_deg_prm_spec (h h' : objs X Y Z) a d name unit lats what :
  was_given (mech_name h) a d -> dwf lats -> new_deg_prm h a name unit lats what = Ok h' ->
  exists p, ob_prms h' = ob_prms h ++ [p] /\
  (po_deg p = true /\ po_name p = name /\ po_unit p = unit /\ po_what p = what /\ po_mechs p = dkeys d /\ po_lats p = dkeys lats) /\
  (forall x j, In (x, j) lats -> latent_var p x = Some (RLat j)) /\
  (forall k i, In (k, i) d -> (forall x, In x (dkeys lats) -> ~ clash k x) -> mech_mdl p k = Some (RMech i)) /\
  (forall k x j, In (x, j) lats -> clash k x -> mech_mdl p k = Some (RLat j)).
Proof.
  intros G W E. unfold new_deg_prm in E. destruct (add_mechs (ob_mechs h) a) as [[mechs (attrs & mn)]|] eqn:E1; [|discriminate E].
  cbn [rbind] in E. destruct (add_latents (ob_lats h) attrs lats) as (lh & attrs' & ln) eqn:E2. injection E as <-.
  destruct (add_mechs_spec _ _ _ _ _ _ G E1) as (-> & A & _). destruct (add_latents_spec _ _ _ _ _ _ W E2) as (-> & B & C).
  eexists. split; [reflexivity|]. split; [repeat split|]. split; [exact B|]. unfold mech_mdl. cbn [po_attrs]. split.
  - intros k i Hk N. rewrite C; auto. intros x Hx Q. apply clash_names in Q. exact (N x Hx Q).
  - intros k x j Hx Cl. apply clash_names in Cl. rewrite Cl. exact (B _ _ Hx).
Qed.

Theorem new_deg_prm_names (h h' : objs X Y Z) a d name unit lats what :
  was_given (mech_name h) a d -> (forall x, In x (dkeys lats) -> x <> ""%string) ->
  new_deg_prm h a name unit lats what = Ok h' ->
  (forall i, ~ In i (map snd d) -> nth_error (ob_mechs h') i = nth_error (ob_mechs h) i) /\
  (forall i k o, last_key d i k -> nth_error (ob_mechs h) i = Some o ->
     nth_error (ob_mechs h') i = Some (MechObj (Some k) (mo_unit o) (mo_std o) (mo_what o))) /\
  (forall i o, nth_error (ob_lats h) i = Some o -> named (lo_name o) = true \/ ~ In i (map snd lats) ->
     nth_error (ob_lats h') i = Some o) /\
  (forall i o k, nth_error (ob_lats h) i = Some o -> named (lo_name o) = false -> first_key lats i k ->
     nth_error (ob_lats h') i = Some (LatObj (Some k) (lo_what o))).
Proof.
  intros G Ne E. unfold new_deg_prm in E. destruct (add_mechs (ob_mechs h) a) as [[mechs (attrs & mn)]|] eqn:E1; [|discriminate E].
  cbn [rbind] in E. destruct (add_latents (ob_lats h) attrs lats) as (lh & attrs' & ln) eqn:E2. injection E as <-.
  destruct (add_mechs_spec _ _ _ _ _ _ G E1) as (_ & _ & B & C). cbn [ob_mechs ob_lats]. split; auto. split.
  - intros i k o Hk Ho. rewrite (C _ _ Hk), Ho. reflexivity.
  - unfold add_latents in E2. pose proof (add_latents_names _ _ _ _ _ _ E2 Ne) as K. split.
    + intros i o Ho Hi. exact (proj1 (K i o Ho) Hi).
    + intros i o k Ho Nm Hk. exact (proj2 (K i o Ho) k Nm Hk).
Qed.

Theorem new_deg_prm_fails (h : objs X Y Z) a name unit lats what e :
  new_deg_prm h a name unit lats what = Err e ->
  exists i, a = MOne i /\ (nth_error (ob_mechs h) i = None \/ (e = UserConfigError /\ named (mech_name h i) = false)).
Proof.
  unfold new_deg_prm, mech_name. destruct a as [d|i]; cbn.
  - destruct (fold_left add_mech d _) as (m & at' & n). destruct (add_latents _ _ _) as (x & y & z). discriminate.
  - destruct (nth_error (ob_mechs h) i) as [o|] eqn:Ei; [|cbn; intros _; exists i; auto].
    destruct (mo_name o) as [[|c k]|] eqn:Nk; cbn; intros E.
    + injection E as <-. exists i. rewrite Ei, Nk. auto.
    + destruct (add_latents _ _ _) as (x & y & z). discriminate E.
    + injection E as <-. exists i. rewrite Ei, Nk. auto.
Qed.
Theorem new_deg_prm_unnamed (h : objs X Y Z) i o name unit lats what :
  nth_error (ob_mechs h) i = Some o -> named (mo_name o) = false ->
  new_deg_prm h (MOne i) name unit lats what = Err UserConfigError.
Proof.
  intros Ei N. unfold new_deg_prm. cbn. rewrite Ei. destruct (mo_name o) as [[|c k]|]; [reflexivity|discriminate N|reflexivity].
Qed.

(** ** Devices *)
Lemma add_prm_fold (d : dict nat) : forall (prms : list (prmobj Z)) attrs names prms' attrs' names',
  fold_left add_prm d (prms, (attrs, names)) = (prms', (attrs', names')) -> dwf d ->
  names' = names ++ dkeys d /\ length prms' = length prms /\
  (forall k i, In (k, i) d -> dget attrs' ("_" ++ k ++ "_mdl") = Some i) /\
  (forall a, (forall k, In k (dkeys d) -> a <> ("_" ++ k ++ "_mdl")%string) -> dget attrs' a = dget attrs a) /\
  (forall i, ~ In i (map snd d) -> nth_error prms' i = nth_error prms i) /\
  (forall i k, last_key d i k -> nth_error prms' i = option_map (set_prm_name k) (nth_error prms i)) /\
  (forall i p, nth_error prms i = Some p -> exists q, nth_error prms' i = Some q /\ same_prm p q).
Proof.
  induction d as [|[x j] d IH]; intros prms attrs names prms' attrs' names' E W.
  { cbn in E. injection E as <- <- <-. rewrite app_nil_r. repeat split; auto; [intros k i []| |].
    - intros i k (d1 & d2 & Q & _). destruct d1; discriminate Q.
    - intros i p Hp. exists p. repeat split; auto. }
  cbn [fold_left add_prm] in E. inversion W as [|? ? N W']; subst.
  destruct (IH _ _ _ _ _ _ E W') as (-> & Ln & A & B & C & D & F). split; [rewrite <- app_assoc; reflexivity|].
  split; [rewrite Ln; apply upd_len|]. split; [|split; [|split; [|split]]].
  - intros k i [Q|Hk]; [|now apply A]. injection Q as -> ->. rewrite B, dget_dset_eq; auto.
    intros k' Hk' P. apply mdl_inj in P. subst. contradiction.
  - intros a Ha. rewrite B; [|intros k Hk; apply Ha; cbn; auto]. apply dget_dset_neq. intros P. apply (Ha x); cbn; auto.
  - intros i Hi. cbn in Hi. rewrite C by tauto. rewrite upd_nth. destruct (Nat.eqb_spec j i); tauto.
  - intros i k Hk. apply last_key_cons in Hk as [Hk|(-> & -> & Hn)].
    + rewrite (D _ _ Hk), upd_nth. destruct (Nat.eqb j i); auto. destruct (nth_error prms i); reflexivity.
    + rewrite (C _ Hn), upd_nth, Nat.eqb_refl. reflexivity.
  - intros i p Hp. destruct (F i (if Nat.eqb j i then set_prm_name x p else p)) as (q & Hq & S).
    { rewrite upd_nth, Hp. destruct (Nat.eqb j i); reflexivity. }
    exists q. split; auto. destruct (Nat.eqb j i); auto.
Qed.

Lemma add_prms_spec (h : objs X Y Z) a d prms' attrs names : was_given (prm_name h) a d ->
  add_prms (ob_prms h) a = Ok (prms', (attrs, names)) ->
  names = dkeys d /\
  (forall k i, In (k, i) d -> dget attrs ("_" ++ k ++ "_mdl") = Some i) /\
  (forall i, ~ In i (map snd d) -> nth_error prms' i = nth_error (ob_prms h) i) /\
  (forall i k, last_key d i k -> nth_error prms' i = option_map (set_prm_name k) (nth_error (ob_prms h) i)) /\
  (forall i p, nth_error (ob_prms h) i = Some p -> exists q, nth_error prms' i = Some q /\ same_prm p q).
Proof.
  intros [d' W|i k Nk Ne] E; cbn in E.
  - injection E as E. destruct (add_prm_fold _ _ _ _ _ _ _ E W) as (-> & _ & A & _ & C & D & F). auto.
  - unfold prm_name in Nk. destruct (nth_error (ob_prms h) i) as [o|] eqn:Ei; [|discriminate E].
    rewrite Nk in E. destruct k as [|c k]; [congruence|]. injection E as <- <- <-.
    split; auto. split; [|split; [|split]]; auto.
    + intros k' i' [Q|[]]. injection Q as <- <-. cbn [dget]. rewrite String.eqb_refl. reflexivity.
    + intros i' k' (d1 & d2 & Q & _). destruct d1 as [|? d1]; [|destruct d1; discriminate Q]. injection Q as <- <- _.
      rewrite Ei. cbn. f_equal. destruct o. cbn in Nk |- *. unfold set_prm_name. cbn. congruence.
    + intros i' p Hp. exists p. repeat split; auto.
Qed.

(** ** Time units *)
Definition reunit (u : option string) (o : mechobj Y) : mechobj Y :=
  if mo_std o then MechObj (mo_name o) (set_time_unit (mo_unit o) u) (mo_std o) (mo_what o) else o.
Lemma reunit_set u u' o : reunit u' (reunit u o) = reunit u o.
Proof. destruct o as [n [x|] [|] y]; cbn; auto. destruct u; reflexivity. Qed.

Lemma units_of_mechs u (p : prmobj Z) (ks : list string) : forall (mechs : list (mechobj Y)) i,
  nth_error (fold_left (unit_of_mech u p) ks mechs) i =
  (if existsb (fun k => match mech_mdl p k with Some (RMech j) => Nat.eqb j i | _ => false end) ks
   then option_map (reunit u) (nth_error mechs i) else nth_error mechs i).
Proof.
  induction ks as [|k ks IH]; intros mechs i; [reflexivity|]. cbn [fold_left existsb]. rewrite IH. unfold unit_of_mech.
  destruct (mech_mdl p k) as [[j|j]|]; try reflexivity. rewrite upd_nth. destruct (Nat.eqb j i); [|reflexivity]. cbn [orb].
  destruct (existsb _ ks); [|reflexivity]. destruct (nth_error mechs i) as [o|]; [|reflexivity]. cbn [option_map]. f_equal.
  apply (reunit_set u u o).
Qed.

Definition usesb (p : prmobj Z) (i : nat) : bool :=
  po_deg p && existsb (fun k => match mech_mdl p k with Some (RMech j) => Nat.eqb j i | _ => false end) (po_mechs p).
Lemma usesb_spec p i : usesb p i = true <-> uses p i.
Proof.
  unfold usesb, uses. rewrite andb_true_iff, existsb_exists. split.
  - intros (D & k & Hk & E). split; auto. exists k. split; auto. destruct (mech_mdl p k) as [[j|j]|]; try discriminate E.
    apply Nat.eqb_eq in E. congruence.
  - intros (D & k & Hk & E). split; auto. exists k. split; auto. rewrite E. apply Nat.eqb_refl.
Qed.
Lemma uses_same p q i : same_prm p q -> usesb q i = usesb p i.
Proof. intros (A & _ & B & C & _). unfold usesb, mech_mdl. now rewrite A, B, C. Qed.

Lemma prm_units_nth dev (p : prmobj Z) (mechs : list (mechobj Y)) i :
  nth_error (prm_units dev mechs p) i =
  if usesb p i then option_map (reunit (or_unit (po_unit p) dev)) (nth_error mechs i) else nth_error mechs i.
Proof. unfold prm_units, usesb. destruct (po_deg p); [apply units_of_mechs|reflexivity]. Qed.

Lemma all_units_nth dev (ps : list (prmobj Z)) : forall (mechs : list (mechobj Y)) i,
  nth_error (fold_left (prm_units dev) ps mechs) i =
  match find (fun p => usesb p i) ps with
  | Some p => option_map (reunit (or_unit (po_unit p) dev)) (nth_error mechs i)
  | None => nth_error mechs i
  end.
Proof.
  induction ps as [|p ps IH]; intros mechs i; [reflexivity|]. cbn [fold_left find]. rewrite IH, prm_units_nth.
  destruct (usesb p i); [|reflexivity]. destruct (find _ ps) as [q|]; [|reflexivity].
  destruct (nth_error mechs i) as [o|]; [|reflexivity]. cbn [option_map]. f_equal. apply reunit_set.
Qed.

Lemma dev_units_list dev v (prms : list (prmobj Z)) : forall ks qs (mechs : list (mechobj Y)),
  Forall2 (fun k q => exists i, prm_mdl v k = Some i /\ nth_error prms i = Some q) ks qs ->
  fold_left (fun ms k => match prm_mdl v k with
                         | Some i => match nth_error prms i with Some p => prm_units dev ms p | None => ms end
                         | None => ms
                         end) ks mechs = fold_left (prm_units dev) qs mechs.
Proof.
  induction ks as [|k ks IH]; intros qs mechs F; inversion F as [|? ? ? ? (i & A & B) F']; subst; [reflexivity|].
  cbn [fold_left]. rewrite A, B. apply IH. exact F'.
Qed.

Theorem new_device_spec (h h' : objs X Y Z) a d name unit v :
  was_given (prm_name h) a d -> new_device h a name unit = Ok (h', v) ->
  vo_name v = name /\ vo_unit v = unit /\ vo_prms v = dkeys d /\
  (forall k i, In (k, i) d -> prm_mdl v k = Some i) /\
  (forall i, ~ In i (map snd d) -> nth_error (ob_prms h') i = nth_error (ob_prms h) i) /\
  (forall i k, last_key d i k -> nth_error (ob_prms h') i = option_map (set_prm_name k) (nth_error (ob_prms h) i)) /\
  (forall i p, nth_error (ob_prms h) i = Some p -> exists q, nth_error (ob_prms h') i = Some q /\ same_prm p q) /\
  ob_lats h' = ob_lats h.
Proof.
  intros G E. unfold new_device in E. destruct (add_prms (ob_prms h) a) as [[prms (attrs & names)]|] eqn:E1; [|discriminate E].
  cbn [rbind] in E. injection E as <- <-. destruct (add_prms_spec _ _ _ _ _ _ G E1) as (-> & A & B & C & D).
  cbn. unfold prm_mdl. cbn. repeat split; auto.
Qed.

Theorem new_device_units (h h' : objs X Y Z) a d name unit v ps i :
  was_given (prm_name h) a d -> new_device h a name unit = Ok (h', v) ->
  Forall2 (fun ki p => nth_error (ob_prms h) (snd ki) = Some p) d ps ->
  nth_error (ob_mechs h') i =
  match find (fun p => usesb p i) ps with
  | Some p => option_map (reunit (or_unit (po_unit p) unit)) (nth_error (ob_mechs h) i)
  | None => nth_error (ob_mechs h) i
  end.
Proof.
  intros G E F. unfold new_device in E. destruct (add_prms (ob_prms h) a) as [[prms (attrs & names)]|] eqn:E1; [|discriminate E].
  cbn [rbind] in E. injection E as <- <-. destruct (add_prms_spec _ _ _ _ _ _ G E1) as (-> & A & _ & _ & D).
  cbn [ob_mechs]. unfold dev_units. cbn [vo_prms].
  assert (K : exists qs, Forall2 (fun k q => exists i, prm_mdl (DevObj name unit attrs (dkeys d)) k = Some i /\ nth_error prms i = Some q) (dkeys d) qs /\
              Forall2 same_prm ps qs).
  { clear E1 G. induction F as [|[k j] p d ps Hp F IH]; [exists []; split; constructor|].
    destruct IH as (qs & Q1 & Q2); [intros k' i' Hk'; apply A; now right|]. destruct (D _ _ Hp) as (q & Hq & S).
    exists (q :: qs). split; constructor; auto. exists j. split; auto. apply A. now left. }
  destruct K as (qs & K1 & K2). rewrite (dev_units_list unit _ prms _ _ _ K1), all_units_nth.
  clear -K2. induction K2 as [|p q ps qs S K IH]; [reflexivity|]. cbn [find]. rewrite (uses_same _ _ i S).
  destruct (usesb p i); auto. destruct S as (_ & U & _). rewrite U. reflexivity.
Qed.

Theorem new_device_unit_first (h h' : objs X Y Z) a d name unit v l1 p l2 i o :
  was_given (prm_name h) a d -> new_device h a name unit = Ok (h', v) ->
  Forall2 (fun ki p => nth_error (ob_prms h) (snd ki) = Some p) d (l1 ++ p :: l2) ->
  nth_error (ob_mechs h) i = Some o -> mo_std o = true -> uses p i -> (forall q, In q l1 -> ~ uses q i) ->
  nth_error (ob_mechs h') i = Some (MechObj (mo_name o) (resolved (mo_unit o) (po_unit p) unit) true (mo_what o)).
Proof.
  intros G E F Ho S U N. rewrite (new_device_units _ _ _ _ _ _ _ _ i G E F), Ho.
  assert (K : find (fun p => usesb p i) (l1 ++ p :: l2) = Some p).
  { clear -U N. induction l1 as [|q l1 IH]; cbn.
    - apply usesb_spec in U. now rewrite U.
    - destruct (usesb q i) eqn:Eq; [apply usesb_spec in Eq; exfalso; apply (N q); cbn; auto|]. apply IH. intros q' Hq'. apply N. now right. }
  rewrite K. cbn [option_map]. unfold reunit. rewrite S. do 2 f_equal. unfold set_time_unit, or_unit, resolved.
  destruct (mo_unit o), (po_unit p) as [[|]|], unit; reflexivity.
Qed.
Theorem new_device_unit_other (h h' : objs X Y Z) a d name unit v ps i :
  was_given (prm_name h) a d -> new_device h a name unit = Ok (h', v) ->
  Forall2 (fun ki p => nth_error (ob_prms h) (snd ki) = Some p) d ps ->
  (forall p, In p ps -> ~ uses p i) \/ (forall o, nth_error (ob_mechs h) i = Some o -> mo_std o = false) ->
  nth_error (ob_mechs h') i = nth_error (ob_mechs h) i.
Proof.
  intros G E F K. rewrite (new_device_units _ _ _ _ _ _ _ _ i G E F). destruct (find _ ps) as [p|] eqn:Ef; auto.
  apply find_some in Ef as [Hp Up]. apply usesb_spec in Up. destruct K as [K|K]; [destruct (K p Hp Up)|].
  destruct (nth_error (ob_mechs h) i) as [o|]; auto. cbn. unfold reunit. rewrite (K o eq_refl). reflexivity.
Qed.
Theorem new_device_fails (h : objs X Y Z) a name unit e : new_device h a name unit = Err e ->
  exists i, a = MOne i /\ (nth_error (ob_prms h) i = None \/ (e = UserConfigError /\ named (prm_name h i) = false)).
Proof.
  unfold new_device, prm_name. destruct a as [d|i]; cbn.
  - destruct (fold_left add_prm d _) as (m & at' & n). discriminate.
  - destruct (nth_error (ob_prms h) i) as [o|] eqn:Ei; [|cbn; intros _; exists i; auto].
    destruct (po_name o) as [[|c k]|] eqn:Nk; cbn; intros E; try discriminate E;
    injection E as <-; exists i; rewrite Ei, Nk; auto.
Qed.
Theorem new_device_unnamed (h : objs X Y Z) i o name unit :
  nth_error (ob_prms h) i = Some o -> named (po_name o) = false -> new_device h (MOne i) name unit = Err UserConfigError.
Proof.
  intros Ei N. unfold new_device. cbn. rewrite Ei. destruct (po_name o) as [[|c k]|]; [reflexivity|discriminate N|reflexivity].
Qed.
End L.
Theorem new_circ_prm_spec {X Y Z} (h : objs X Y Z) name lats what : dwf lats ->
  exists p, ob_prms (new_circ_prm h name lats what) = ob_prms h ++ [p] /\ ob_mechs (new_circ_prm h name lats what) = ob_mechs h /\
  po_deg p = false /\ po_name p = name /\ po_what p = what /\ po_lats p = dkeys lats /\
  forall x j, In (x, j) lats -> latent_var p x = Some (RLat j).
Proof.
  intros W. unfold new_circ_prm. destruct (add_latents (ob_lats h) [] lats) as (lh & attrs' & ln) eqn:E2.
  destruct (add_latents_spec _ _ _ _ _ _ W E2) as (-> & B & _). eexists. split; [reflexivity|]. repeat split; auto.
Qed.
