(** Properties of tables of measurements: C45. *)
From Coq Require Import QArith.
From Verif Require Import M_Base M_Num M_Nd M_Time M_TestSpec M_Report S_Report L_Report.
Open Scope nat_scope.

(** An array of L lots, C chips and D devices gives L*C*D rows; the row for lot l,
    chip c and device d is unique and holds element [l][c][d]. *)
Theorem C45_labels : forall V (O : NumOps V) a prm time stp L C D,
  layout (nshape a) L C D -> length (ndata a) = L * C * D ->
  exists rows : list (row V), format_measurements (PArr a) prm time stp true = Ok rows /\
    length rows = L * C * D /\ NoDup (map labels rows) /\
    (forall l c d, l < L -> c < C -> d < D -> exists v, at3 C D (ndata a) l c d v /\
       In (Row prm stp (Some d) (Some c) (Some l) time v) rows) /\
    (forall r, In r rows -> exists l c d v, l < L /\ c < C /\ d < D /\ at3 C D (ndata a) l c d v /\
       r = Row prm stp (Some d) (Some c) (Some l) time v).
Proof.
  intros V O a prm time stp L C D Ly Hn. destruct (format_param a prm time stp L C D Ly Hn) as (rows & E & Hl & G).
  destruct (format_rows a prm time stp L C D rows Ly Hn E) as [A B]. exists rows. repeat (split; auto).
  intros l c d H1 H2 H3. destruct (G l c d H1 H2 H3) as (v & Hv & Hx). exists v. split; auto. eapply nth_error_In; eauto.
Qed.
Print Assumptions C45_labels.
(** The rows are in lot, chip, device order. *)
Theorem C45_order : forall V (O : NumOps V) a prm time stp L C D (rows : list (row V)),
  layout (nshape a) L C D -> length (ndata a) = L * C * D -> format_measurements (PArr a) prm time stp true = Ok rows ->
  forall l c d, l < L -> c < C -> d < D -> exists v, at3 C D (ndata a) l c d v /\
    at3 C D rows l c d (Row prm stp (Some d) (Some c) (Some l) time v).
Proof.
  intros V O a prm time stp L C D rows Ly Hn E. destruct (format_param a prm time stp L C D Ly Hn) as (rows' & E' & _ & G).
  rewrite E in E'. injection E' as <-. exact G.
Qed.
Print Assumptions C45_order.
(** Conditions: one row per value, in order, without labels. *)
Theorem C45_conditions : forall V (O : NumOps V) a prm time stp L C D,
  layout (nshape a) L C D -> length (ndata a) = L * C * D ->
  format_measurements (PArr a) prm time stp false = Ok (map (fun v : V => Row prm stp None None None time v) (ndata a)).
Proof. intros V O. exact format_cond. Qed.
Print Assumptions C45_conditions.
(** Scalars and dictionaries are IndexErrors, arrays of higher rank ValueErrors. *)
Theorem C45_scalars_rejected : forall V (O : NumOps V) (p : pyval V) prm time stp b,
  (forall a, p <> PArr a) -> format_measurements p prm time stp b = Err IndexError.
Proof. intros V O. exact format_other. Qed.
Print Assumptions C45_scalars_rejected.
Theorem C45_high_rank_rejected : forall V (O : NumOps V) a prm time stp b n r,
  nshape a = n :: r -> 3 <= length r -> length (ndata a) = prod (n :: r) -> n <> 0 -> prod r <> 1 ->
  format_measurements (V := V) (PArr a) prm time stp b = Err ValueError.
Proof. intros V O. exact format_rank4. Qed.
Print Assumptions C45_high_rank_rejected.

Example C45_example :
  let a := Nd [2; 2; 3] (map inject_Z [0; 1; 2; 10; 11; 12; 100; 101; 102; 110; 111; 112]%Z) in
  layout (nshape a) 2 2 3 /\ length (ndata a) = 2 * 2 * 3 /\ at3 2 3 (ndata a) 1 0 2 (inject_Z 102) /\
  match format_measurements (PArr a) "vth" (TD 5) 7 true with
  | Ok rows => nth_error rows 8 = Some (Row "vth" 7 (Some 2) (Some 0) (Some 1) (TD 5) (inject_Z 102)) /\
               nth_error rows 3 = Some (Row "vth" 7 (Some 0) (Some 1) (Some 0) (TD 5) (inject_Z 10))
  | _ => False
  end.
Proof. cbv zeta. split; [constructor|]. split; [reflexivity|]. split; [reflexivity|]. vm_compute. auto. Qed.
Example C45_low_rank : layout [3; 4] 1 3 4 /\ layout [5] 1 1 5 /\
  match format_measurements (PArr (Nd [2; 1] [1%Q; 2%Q])) "vth" (TD 5) 7 true with
  | Ok rows => rows = [Row "vth" 7 (Some 0) (Some 0) (Some 0) (TD 5) 1%Q; Row "vth" 7 (Some 0) (Some 1) (Some 0) (TD 5) 2%Q]
  | _ => False
  end.
Proof. split; [constructor|]. split; [constructor|]. reflexivity. Qed.
