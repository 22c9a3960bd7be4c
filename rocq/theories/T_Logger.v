(** Properties of the logger: C55. *)
From Verif Require Import M_Base M_Logger S_Logger L_Logger.

(** After any sequence of calls the plain stream handlers are: the one supplied
    last, or none if that one is of a subclass, or the initial one if none was
    supplied; the same for plain file handlers. *)
Theorem C55_latest_installed : forall g cs s f,
  (forall c, In c cs -> fitting c) ->
  length (of_kind HStream g) <= 1 -> length (of_kind HFile g) <= 1 ->
  latest c_stream cs s -> latest c_file cs f ->
  of_kind HStream (configure_all g cs) =
    match s with None => of_kind HStream g | Some h => if hkind_eqb (h_kind h) HStream then [h] else [] end /\
  of_kind HFile (configure_all g cs) =
    match f with None => of_kind HFile g | Some h => if hkind_eqb (h_kind h) HFile then [h] else [] end.
Proof. intros g cs s f F A1 A2. exact (configure_all_kind g cs F A1 A2 s f). Qed.
Print Assumptions C55_latest_installed.

Theorem C55_at_most_one : forall g cs,
  (forall c, In c cs -> fitting c) ->
  length (of_kind HStream g) <= 1 -> length (of_kind HFile g) <= 1 ->
  length (of_kind HStream (configure_all g cs)) <= 1 /\ length (of_kind HFile (configure_all g cs)) <= 1.
Proof.
  intros g cs F A1 A2. destruct (latest_ex c_stream cs) as [s Hs], (latest_ex c_file cs) as [f Hf].
  destruct (configure_all_kind g cs F A1 A2 s f Hs Hf) as [-> ->]. split; now apply after_alone.
Qed.
Print Assumptions C55_at_most_one.

(** A supplied handler of any type is installed at the end of the call. *)
Theorem C55_supplied_installed : forall g c h, c_file c = Some h \/ (c_file c = None /\ c_stream c = Some h) ->
  In h (lg_handlers (configure g c)).
Proof.
  intros g c h [E|[E E2]]; unfold configure; destruct (find_existing _); cbn [lg_handlers]; rewrite E; cbn [install]; [|rewrite E2; cbn [install]];
    apply add_In; now right.
Qed.
Print Assumptions C55_supplied_installed.

(** Handlers of other types (also the one coloredlogs installs) are never removed,
    and every supplied one stays. *)
Theorem C55_subclasses_accumulate : forall g cs h, h_kind h = HOther ->
  (In h (lg_handlers (configure_all g cs)) <-> In h (lg_handlers g) \/ supplied cs h).
Proof. exact configure_all_other. Qed.
Print Assumptions C55_subclasses_accumulate.

(** No handler is ever installed twice. *)
Theorem C55_no_duplicates : forall g cs, NoDup (lg_handlers g) -> NoDup (lg_handlers (configure_all g cs)).
Proof. exact configure_all_NoDup. Qed.
Print Assumptions C55_no_duplicates.

(** The level is the last one supplied, where None and 0 do not count. *)
Theorem C55_level : forall g cs x, latest level_arg cs x ->
  lg_level (configure_all g cs) = match x with Some z => z | None => lg_level g end.
Proof. exact configure_all_level. Qed.
Print Assumptions C55_level.

(** The logger as the package sets it up: level DEBUG and the coloredlogs handler.
    Two stream handlers and a rotating file handler are supplied. *)
Definition exl_default := Handler 0 HOther.
Definition exl0 : logger := Logger 10 [exl_default].
Definition exl_calls : list call :=
  [Call (Some 20%Z) None (Some (Handler 1 HStream)); Call (Some 0%Z) (Some (Handler 2 HFile)) (Some (Handler 3 HStream));
   Call None (Some (Handler 4 HOther)) None].
Example C55_example : configure_all exl0 exl_calls = Logger 20 [exl_default; Handler 3 HStream; Handler 4 HOther].
Proof. reflexivity. Qed.
Example C55_example_hyps : (forall c, In c exl_calls -> fitting c) /\ length (of_kind HStream exl0) <= 1 /\ length (of_kind HFile exl0) <= 1 /\
  latest c_stream exl_calls (Some (Handler 3 HStream)) /\ latest c_file exl_calls (Some (Handler 4 HOther)) /\ latest level_arg exl_calls (Some 20%Z).
Proof.
  repeat split; try (cbn; lia).
  - intros h E. destruct H as [<-|[<-|[<-|[]]]]; cbn in E; inversion E; discriminate.
  - intros h E. destruct H as [<-|[<-|[<-|[]]]]; cbn in E; inversion E; discriminate.
  - exists [Call (Some 20%Z) None (Some (Handler 1 HStream))], (Call (Some 0%Z) (Some (Handler 2 HFile)) (Some (Handler 3 HStream))), [Call None (Some (Handler 4 HOther)) None].
    split; [reflexivity|]. split; [reflexivity|]. intros c [<-|[]]. reflexivity.
  - exists (firstn 2 exl_calls), (Call None (Some (Handler 4 HOther)) None), []. split; [reflexivity|]. split; [reflexivity|]. intros c [].
  - exists [], (Call (Some 20%Z) None (Some (Handler 1 HStream))), (skipn 1 exl_calls).
    split; [reflexivity|]. split; [reflexivity|]. intros c [<-|[<-|[]]]; reflexivity.
Qed.

(** The docstring says the default stream handler is removed when one is supplied;
    it is not, because coloredlogs installs a subclass. *)
Theorem C55_default_replaced_refuted : exists g c h, c_stream c = Some h /\ h_kind h = HStream /\
  lg_handlers g = [exl_default] /\ lg_handlers (configure g c) = [exl_default; h].
Proof. exists exl0, (Call None None (Some (Handler 1 HStream))), (Handler 1 HStream). repeat split. Qed.
Print Assumptions C55_default_replaced_refuted.

(** A FileHandler is a StreamHandler; supplied as the stream handler it replaces no
    file handler and there are two. *)
Theorem C55_file_as_stream_refuted : exists g c, length (of_kind HStream g) <= 1 /\ length (of_kind HFile g) <= 1 /\
  length (of_kind HFile (configure g c)) = 2 /\ of_kind HStream (configure g c) = [].
Proof.
  exists (Logger 10 [Handler 1 HStream; Handler 2 HFile]), (Call None None (Some (Handler 3 HFile))).
  repeat split; cbn; lia.
Qed.
Print Assumptions C55_file_as_stream_refuted.
