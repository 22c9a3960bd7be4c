(** What the demonstration scripts leave behind and show. *)
From Coq Require Import QArith.
From Verif Require Import M_Base M_Num M_Time M_TestSpec M_Report M_Export M_Script S_Export S_Series.
Open Scope nat_scope.

(** The files after a script that may have saved the report [x] as [path]. *)
Definition stored (path : string) (save : bool) (x : xreport) (fs fs' : files) : Prop :=
  if save
  then exists j, export_to_json x (Some "hours"%string) = Ok j /\ fs' path = Some (Saved j) /\ forall p, p <> path -> fs' p = fs p
  else forall p, fs' p = fs p.
(** The same for several reports. *)
Definition stored_all (paths : list string) (save : bool) (xs : list xreport) (fs fs' : files) : Prop :=
  if save
  then Forall2 (fun path x => exists j, export_to_json x (Some "hours"%string) = Ok j /\ fs' path = Some (Saved j)) paths xs /\
       forall p, ~ In p paths -> fs' p = fs p
  else forall p, fs' p = fs p.

(** ** Drawings *)
(** A row as a point of a curve, the time in units of [u] microseconds. *)
Definition shows (u : positive) (r : row Q) (p : tval * Q) : Prop :=
  exists us q, r_time r = TD us /\ fst p = TN q /\ (q == us # u)%Q /\ snd p = r_val r.
Definition an_hour : positive := 3600000000.
Definition a_year : positive := 365 * 24 * 3600000000.
(** The time [n], written as a number. *)
Definition reads (n : Z) (t : tval) : Prop := exists q, t = TN q /\ (q == inject_Z n)%Q.

Definition sum_of (l : list Q) : Q := fold_right Qplus 0%Q l.
(** The values that several series have at position [j]. *)
Definition across (j : nat) (ss : list (list Q)) : list Q := map (fun s => nth j s 0%Q) ss.
(** [b] shows the average and the range of the series [ss] of [n] values each, the range
    at least from 1000 down and from -1000 up. *)
Definition summarises (n : nat) (ss : list (list Q)) (b : band) : Prop :=
  length (b_sum b) = n /\ length (b_min b) = n /\ length (b_max b) = n /\
  forall j avg lo hi, nth_error (b_sum b) j = Some avg -> nth_error (b_min b) j = Some lo -> nth_error (b_max b) j = Some hi ->
    (avg * inject_Z (Z.of_nat (length ss)) == sum_of (across j ss))%Q /\
    (forall v, In v (across j ss) -> (lo <= v <= hi)%Q) /\ (lo <= 1000)%Q /\ (-1000 <= hi)%Q /\
    ((lo < 1000)%Q -> exists v, In v (across j ss) /\ (lo == v)%Q) /\ ((-1000 < hi)%Q -> exists v, In v (across j ss) /\ (hi == v)%Q).

(** The same point up to the rounding of saved numbers. *)
Definition redrawn (p p' : tval * Q) : Prop := fst p' = fst p /\ read_back (snd p) (snd p').

(** The circuits of the pre-silicon demonstration: lots, chips, circuits of a chip. *)
Definition circuits : list (nat * nat * nat) := list_prod (list_prod (seq 0 5) (seq 0 5)) (seq 0 5).
(** The hours at which its simulations are measured. *)
Definition ramp_hours : list Z := 0%Z :: flat_map (fun i => [100 * Z.of_nat i + 90; 100 * Z.of_nat i + 100]%Z) (seq 0 10).
Definition long_hours : list Z := map (fun i => 50 * Z.of_nat i)%Z (seq 0 21).
(** The name of each simulation, when it is measured, and whether its final values are
    shown as well. *)
Definition tests : list (string * list Z * bool) :=
  [("Current Process: Ramped Cycling", ramp_hours, false); ("Current Process: HTOL", long_hours, true); ("Current Process: LTOL", long_hours, true);
   ("New Process: Ramped Cycling", ramp_hours, false); ("New Process: HTOL", long_hours, true); ("New Process: LTOL", long_hours, true)]%string.
(** The readings of a circuit. *)
Definition gains (rows : list (row Q)) (p : nat * nat * nat) : list Q := let '(a, b, c) := p in map r_val (series "amp_gain" a b c rows).
(** The data drawn for one simulation. *)
Definition gain_plot (hours : list Z) (final : bool) (rows : list (row Q)) (p : silicon_plot) : Prop :=
  Forall2 reads hours (si_times p) /\ summarises (length hours) (map (gains rows) circuits) (si_band p) /\
  (forall s, In s (map (gains rows) circuits) -> length s = length hours) /\
  if final then Forall2 (fun s v => exists s0, s = s0 ++ [v]) (map (gains rows) circuits) (si_final p) else si_final p = [].
