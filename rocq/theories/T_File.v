(** Properties of saving reports under a path: C103. *)
From Coq Require Import List String QArith.
From Verif Require Import M_Base M_Num M_Time M_Report S_Time S_Export M_Export M_Script M_File S_File L_File T_Export.
Import ListNotations.
Open Scope list_scope.

(** Saving under an ordinary path succeeds exactly if the directory exists, or only it
    is missing, and the path is not that of a directory. *)
Theorem C103_saved_exactly_when : forall cwd t rooted dirs name x tu j, tree_ok t -> t cwd = Some Dir ->
  Forall ordinary dirs -> ordinary name -> export_to_json x tu = Ok j ->
  (exists t', export_file cwd x (Some (path_text rooted dirs name)) tu t = (Returned j, t')) <->
  available t (base rooted cwd) dirs /\ t (base rooted cwd ++ dirs ++ [name]) <> Some Dir.
Proof. intros. now apply export_iff. Qed.
Print Assumptions C103_saved_exactly_when.

(** Then the file can be read again under the same path, and the file and its directory
    are all that is new. *)
Theorem C103_saved : forall cwd t rooted dirs name x tu j t', tree_ok t -> t cwd = Some Dir ->
  Forall ordinary dirs -> ordinary name -> export_to_json x tu = Ok j ->
  let file := path_text rooted dirs name in let place := base rooted cwd ++ dirs in
  export_file cwd x (Some file) tu t = (Returned j, t') ->
  open_read cwd t' file = inl (Saved j) /\ t' (place ++ [name]) = Some (File (Saved j)) /\ t' place = Some Dir /\
  forall p, p <> place -> p <> place ++ [name] -> t' p = t p.
Proof.
  intros cwd t rooted dirs name x tu j t' W Dc Fd On E file place K. unfold place. rewrite <- app_assoc.
  destruct (proj1 (export_iff cwd t rooted dirs name x tu j W Dc Fd On E) (ex_intro _ _ K)) as [A N].
  destruct (export_saved cwd t rooted dirs name W Dc Fd On x tu j E A N) as (t1 & K1 & D1 & F1 & O1 & R1).
  assert (t1 = t') by (unfold file in K; congruence). subst t1. auto.
Qed.
Print Assumptions C103_saved.

(** Otherwise nothing is changed, and the exception says what is in the way: a directory
    at the path, a file in the place of its directory, a file further up, a missing
    directory further up, or whatever stops the report from being exported. *)
Theorem C103_refused : forall cwd t rooted dirs name x tu, tree_ok t -> t cwd = Some Dir -> Forall ordinary dirs -> ordinary name ->
  let call := export_file cwd x (Some (path_text rooted dirs name)) tu t in let b := base rooted cwd in
  (forall e, export_to_json x tu = Err e -> call = (Raises e, t)) /\
  forall j, export_to_json x tu = Ok j ->
  (t (b ++ dirs ++ [name]) = Some Dir -> call = (RaisesOs IsDir, t)) /\
  (forall c, t (b ++ dirs) = Some (File c) -> call = (RaisesOs Exists, t)) /\
  (forall d r c, dirs = d ++ r -> r <> [] -> t (b ++ d) = Some (File c) -> call = (RaisesOs NotDir, t)) /\
  (forall d y r, dirs = d ++ y :: r -> r <> [] -> t (b ++ d) = Some Dir -> t (b ++ d ++ [y]) = None -> call = (RaisesOs NoEntry, t)) /\
  (fst call = Returned j \/ snd call = t).
Proof.
  intros cwd t rooted dirs name x tu W Dc Fd On call b. split.
  - intros e E. unfold call, export_file. now rewrite E.
  - intros j E.
    assert (K1 : t (b ++ dirs ++ [name]) = Some Dir -> call = (RaisesOs IsDir, t)) by (intros K; now apply (export_onto_dir cwd t rooted dirs name W Dc Fd On x tu j)).
    assert (K2 : forall c, t (b ++ dirs) = Some (File c) -> call = (RaisesOs Exists, t)) by (intros c K; now apply (export_in_file cwd t rooted dirs name W Dc Fd On x tu j c)).
    assert (K3 : forall d r c, dirs = d ++ r -> r <> [] -> t (b ++ d) = Some (File c) -> call = (RaisesOs NotDir, t))
      by (intros d r c A1 A2 A3; now apply (export_blocked cwd t rooted dirs name W Fd On x tu j d r c)).
    assert (K4 : forall d y r, dirs = d ++ y :: r -> r <> [] -> t (b ++ d) = Some Dir -> t (b ++ d ++ [y]) = None -> call = (RaisesOs NoEntry, t))
      by (intros d y r A1 A2 A3 A4; now apply (export_missing cwd t rooted dirs name W Dc Fd On x tu j d y r)).
    repeat (split; [assumption|]).
    destruct (way t dirs b (base_dir cwd t rooted W Dc)) as [A|[(c & A)|[(d & r & c & A1 & A2 & A3)|(d & y & r & A1 & A2 & A3 & A4)]]].
    + destruct (t (b ++ dirs ++ [name])) as [[|c]|] eqn:N.
      * right. now rewrite (K1 eq_refl).
      * left. destruct (proj2 (export_iff cwd t rooted dirs name x tu j W Dc Fd On E)) as (t' & K); [split; [exact A|fold b; congruence]|]. unfold call. now rewrite K.
      * left. destruct (proj2 (export_iff cwd t rooted dirs name x tu j W Dc Fd On E)) as (t' & K); [split; [exact A|fold b; congruence]|]. unfold call. now rewrite K.
    + right. now rewrite (K2 c A).
    + right. now rewrite (K3 d r c A1 A2 A3).
    + right. now rewrite (K4 d y r A1 A2 A3 A4).
Qed.
Print Assumptions C103_refused.

(** Whatever the text of the path: at most one directory is made, where there was
    nothing, at most one file is written, never in place of a directory and exactly if a
    path was given and no exception is raised; nothing else changes. *)
Theorem C103_changes : forall cwd t x file tu r t', tree_ok t -> t cwd = Some Dir -> export_file cwd x file tu t = (r, t') ->
  tree_ok t' /\ exists made wrote, changed t t' made wrote (match r with Returned j => Some j | _ => None end) /\
    (wrote <> None <-> (exists j, r = Returned j) /\ file <> None /\ file <> Some ""%string).
Proof. intros cwd t x file tu r t'. exact (export_changes cwd x file tu t r t'). Qed.
Print Assumptions C103_changes.

(** No exception costs a file. *)
Theorem C103_exceptions_keep_files : forall cwd t x file tu r t' p c, tree_ok t -> t cwd = Some Dir -> export_file cwd x file tu t = (r, t') ->
  (forall j, r <> Returned j) -> (t p = Some (File c) <-> t' p = Some (File c)).
Proof.
  intros cwd t x file tu r t' p c W Dc E N. destruct (export_changes cwd x file tu t r t' W Dc E) as (_ & made & wrote & (M & Wr & V) & I).
  assert (wrote = None) as ->.
  { destruct wrote as [q|]; [|reflexivity]. destruct (proj1 I) as [[j K] _]; [discriminate|]. exfalso. exact (N j K). }
  rewrite V. destruct made as [m|]; [|reflexivity]. destruct (spot_eqb p m) eqn:Em; [|reflexivity].
  apply spot_eqb_eq in Em as ->. rewrite (M m eq_refl). split; discriminate.
Qed.
Print Assumptions C103_exceptions_keep_files.

(** Reports saved one after the other in one directory are all there. *)
Theorem C103_several : forall cwd t rooted dirs l, tree_ok t -> t cwd = Some Dir -> Forall ordinary dirs ->
  available t (base rooted cwd) dirs -> NoDup (map fst l) ->
  let place := base rooted cwd ++ dirs in let here := fun nx : string * xreport => (path_text rooted dirs (fst nx), snd nx) in
  (forall n x, In (n, x) l -> ordinary n /\ (exists j, export_to_json x (Some "hours"%string) = Ok j) /\ t (place ++ [n]) <> Some Dir) ->
  exists t', export_each cwd (map here l) t = (None, t') /\
    (forall n x j, In (n, x) l -> export_to_json x (Some "hours"%string) = Ok j -> t' (place ++ [n]) = Some (File (Saved j))) /\
    (forall p, p <> place -> (forall n, In n (map fst l) -> p <> place ++ [n]) -> t' p = t p) /\
    (* a report that cannot be exported ends it there *)
    forall n x e l2, export_to_json x (Some "hours"%string) = Err e -> export_each cwd (map here (l ++ (n, x) :: l2)) t = (Some (inl e), t').
Proof.
  intros cwd t rooted dirs l W Dc Fd A Nd place here K.
  destruct (export_each_saved cwd rooted dirs Fd l t W Dc A Nd) as (t' & E & _ & _ & _ & _ & F & O).
  { intros n x Hn. unfold place in K. setoid_rewrite <- app_assoc in K. exact (K n x Hn). }
  exists t'. split; [exact E|]. split; [|split].
  - intros n x j. unfold place. rewrite <- app_assoc. apply F.
  - intros p P1 P2. apply O; [right; exact P1|]. intros n Hn. specialize (P2 n Hn). unfold place in P2. now rewrite <- app_assoc in P2.
  - intros n x e l2 Ex. rewrite map_app. rewrite (export_each_app cwd _ _ _ _ E). cbn [map here fst snd export_each]. unfold export_file. now rewrite Ex.
Qed.
Print Assumptions C103_several.

(** The demonstration scripts save under such paths: in the directory 'data' next to
    them, which need not exist. *)
Theorem C103_scripts : forall rooted dirs name, Forall ordinary dirs -> rooted = false \/ dirs <> [] ->
  data_path (match dirs with [] => "" | _ => (if rooted then "/" else "") ++ String.concat "/" dirs end)%string name =
  path_text rooted (dirs ++ ["data"%string]) (name ++ ".json") /\
  forall t b, t (b ++ dirs) = Some Dir -> (t (b ++ dirs ++ ["data"%string]) = None \/ t (b ++ dirs ++ ["data"%string]) = Some Dir) ->
    available t b (dirs ++ ["data"%string]).
Proof.
  intros rooted dirs name F R. split; [exact (data_path_text rooted dirs name F R)|].
  intros t b D [K|K]; [|left; exact K]. right. exists dirs, "data"%string. auto.
Qed.
Print Assumptions C103_scripts.

(** ** Examples *)
Local Open Scope string_scope.
Local Open Scope list_scope.
(** /home/me with a file notes.txt *)
Definition ex_cwd : spot := ["home"; "me"].
Definition ex_tree : tree := fun p =>
  if spot_eqb p [] || spot_eqb p ["home"] || spot_eqb p ["home"; "me"] then Some Dir
  else if spot_eqb p ["home"; "me"; "notes.txt"] then Some (File OtherFile) else None.
Lemma ex_tree_ok : tree_ok ex_tree /\ ex_tree ex_cwd = Some Dir.
Proof.
  split; [|reflexivity]. split; [reflexivity|]. intros p c K. unfold ex_tree in K.
  destruct (spot_eqb (p ++ [c]) []) eqn:E1; [apply spot_eqb_eq in E1; destruct p; discriminate|].
  destruct (spot_eqb (p ++ [c]) ["home"]) eqn:E2; [apply spot_eqb_eq in E2; apply (last_inj p [] c "home") in E2 as [-> _]; reflexivity|].
  destruct (spot_eqb (p ++ [c]) ["home"; "me"]) eqn:E3; [apply spot_eqb_eq in E3; apply (last_inj p ["home"] c "me") in E3 as [-> _]; reflexivity|].
  destruct (spot_eqb (p ++ [c]) ["home"; "me"; "notes.txt"]) eqn:E4; [|exfalso; apply K; reflexivity].
  apply spot_eqb_eq in E4. apply (last_inj p ["home"; "me"] c "notes.txt") in E4 as [-> _]. reflexivity.
Qed.
(** A report of one measurement after an hour. *)
Definition tiny : xreport := XReport "n" "d" None (Some [Row "vth" 0 (Some 0%nat) (Some 0%nat) (Some 0%nat) (TD 3600000000) 1%Q]) (Some []).
Definition saved_under (file : string) : saving * tree := export_file ex_cwd tiny (Some file) (Some "h") ex_tree.
Definition os_error (r : saving) : option oserr := match r with RaisesOs o => Some o | _ => None end.
Example C103_example :
  (* one missing directory is made, and the times come back as in C50 *)
  (match saved_under "out/r.json" with
   | (Returned j, t') => t' ["home"; "me"; "out"] = Some Dir /\ t' ["home"; "me"; "out"; "r.json"] = Some (File (Saved j)) /\
       open_read ex_cwd t' "out/r.json" = inl (Saved j) /\ open_read ex_cwd t' "/home/me/out/../out//r.json" = inl (Saved j) /\
       match load j with Ok x' => match x_meas x' with Some l => map r_time l = [TD 3600000000] | None => False end | _ => False end
   | _ => False
   end) /\
  (match saved_under "notes.txt" with (Returned j, t') => t' ["home"; "me"; "notes.txt"] = Some (File (Saved j)) | _ => False end) /\
  (* two are not *)
  os_error (fst (saved_under "out/2026/r.json")) = Some NoEntry /\ snd (saved_under "out/2026/r.json") = ex_tree /\
  os_error (fst (saved_under "notes.txt/r.json")) = Some Exists /\ os_error (fst (saved_under "notes.txt/2026/r.json")) = Some NotDir /\
  os_error (fst (saved_under "/home/me")) = Some IsDir /\
  path_text true ["home"] "me" = "/home/me" /\ path_text false ["out"; "2026"] "r.json" = "out/2026/r.json".
Proof. split; [vm_compute; repeat split|]. split; [vm_compute; reflexivity|]. repeat (split; [reflexivity|]). split; reflexivity. Qed.

(** A path that ends in a slash: the exception leaves a directory behind. *)
Theorem C103_nothing_left_behind_refuted : exists cwd t x file tu o t' p, tree_ok t /\ t cwd = Some Dir /\
  export_file cwd x (Some file) tu t = (RaisesOs o, t') /\ t p = None /\ t' p = Some Dir.
Proof.
  exists ex_cwd, ex_tree, tiny, "results/", (Some "h"), IsDir. eexists. exists ["home"; "me"; "results"].
  split; [apply ex_tree_ok|]. split; [apply ex_tree_ok|]. split; [reflexivity|]. split; reflexivity.
Qed.
Print Assumptions C103_nothing_left_behind_refuted.

(** Three reports in a new directory, and one without measurements after them. *)
Lemma several_any : forall x j bad, export_to_json x (Some "hours") = Ok j -> export_to_json bad (Some "hours") = Err KeyError ->
  let l := [("a.json", x); ("b.json", x); ("c.json", x)] in
  let here := fun nx : string * xreport => (path_text false ["data"] (fst nx), snd nx) in
  available ex_tree ex_cwd ["data"] /\
  (exists t', export_each ex_cwd (map here l) ex_tree = (None, t') /\ t' ["home"; "me"; "data"; "b.json"] = Some (File (Saved j)) /\
     export_each ex_cwd (map here (l ++ [("d.json", bad); ("e.json", x)])) ex_tree = (Some (inl KeyError), t')).
Proof.
  intros x j bad Ej Eb l here. assert (A : available ex_tree ex_cwd ["data"]) by (right; exists [], "data"; repeat split; reflexivity). split; [exact A|].
  assert (O : forall n, In n ["data"; "a.json"; "b.json"; "c.json"] -> ordinary n).
  { intros n [<-|[<-|[<-|[<-|[]]]]]; repeat split; try discriminate; cbn; intros K; repeat (destruct K as [K|K]; [discriminate|]); exact K. }
  destruct (C103_several ex_cwd ex_tree false ["data"] l) as (t' & E & F & _ & S); auto.
  - apply ex_tree_ok.
  - constructor; [apply O; now left|constructor].
  - repeat constructor; cbn; intros K; repeat (destruct K as [K|K]; [discriminate|]); exact K.
  - intros n y [K|[K|[K|[]]]]; injection K as <- <-; (split; [apply O; cbn; auto|]); (split; [eauto|discriminate]).
  - exists t'. split; [exact E|]. split.
    + apply (F "b.json" x j); [right; left; reflexivity|exact Ej].
    + exact (S "d.json" bad KeyError [("e.json", x)] Eb).
Qed.
Example C103_several_example : exists j, export_to_json ex_x (Some "hours") = Ok j /\
  exists t', export_each ex_cwd [("data/a.json", ex_x); ("data/b.json", ex_x); ("data/c.json", ex_x)] ex_tree = (None, t') /\
    t' ["home"; "me"; "data"; "b.json"] = Some (File (Saved j)).
Proof.
  destruct (C50_times_restored ex_x ex_rows ex_sums (Some "hours") 3600000000%Z ex_timed) as (j & _ & _ & _ & Ej & _); [cbn; auto 11|discriminate|].
  exists j. split; [exact Ej|]. destruct (several_any ex_x j (XReport "n" "d" None None None) Ej eq_refl) as (_ & t' & E & F & _). eauto.
Qed.
