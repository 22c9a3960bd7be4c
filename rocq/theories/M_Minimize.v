(** Vectorised Brent minimisation (gerabaldi/math/minimize.py lines 16-134).
    An array of problems is a list of per-problem records in row-major order:
    every operation of the loop is elementwise except the stop test (np.all) and
    the call of the function, which receives and returns the whole array. *)
From Coq Require Import QArith.
From Verif Require Export M_Base M_Num.
Open Scope nat_scope.

(** The arrays a, b, v, w, x, fv, fw, fx, e, d at one position. *)
Record mst (V : Type) := Mst {
  ma : V; mb : V; mv : V; mw : V; mx : V; mfv : V; mfw : V; mfx : V; me : V; md : V }.
Arguments Mst {V} _ _ _ _ _ _ _ _ _ _.
Arguments ma {V} _. Arguments mb {V} _. Arguments mv {V} _. Arguments mw {V} _. Arguments mx {V} _.
Arguments mfv {V} _. Arguments mfw {V} _. Arguments mfx {V} _. Arguments me {V} _. Arguments md {V} _.

(** Result of a run: the final arrays, whether np.all held when the loop ended,
    and, as ghost information, all evaluations made in order: the points (before
    10**x is applied) and the function values. *)
Record mres (V : Type) := Mres {
  mr_states : list (mst V); mr_conv : bool; mr_evals : list (list V * list V) }.
Arguments Mres {V} _ _ _. Arguments mr_states {V} _. Arguments mr_conv {V} _. Arguments mr_evals {V} _.

Section Minimize.
Context {V : Type} `{NumOps V}.

(** GOLDEN_RATIO and GF2, lines 18-20 *)
Definition golden_ratio : V := ndiv (nadd (nofQ 1) (nsqrt (nofQ 5))) (nofQ 2).
Definition gf2 : V := nsub (nofQ 2) golden_ratio.
(** default mach_eps, lines 14, 23, and precision, line 23 *)
Definition mach_64bit_eps : V := nofQ (1 # (Pos.pow 2 53)).
Definition default_precision : V := nofQ (1 # 100000).

Section Run.
Variables (rel_tol abs_tol : V).   (* lines 31-32 *)

Definition mid (s : mst V) : V := ndiv (nadd (mb s) (ma s)) (nofQ 2).              (* lines 59, 125 *)
Definition tol (s : mst V) : V := nadd (nmul rel_tol (nabs (mx s))) abs_tol.       (* lines 61, 126 *)
Definition tol2 (s : mst V) : V := nmul (tol s) (nofQ 2).                          (* lines 63, 127 *)

(** the element's part of the loop test, line 66 *)
Definition converged (s : mst V) : bool :=
  nltb (nabs (nsub (mx s) (mid s))) (nsub (tol2 s) (nsub (mb s) (mid s))).

(** the step, lines 67-96; x > y is y < x.  When q = 0 numpy's p / q is NaN or
    infinite but is then discarded by np.where. *)
Definition step (s : mst V) : V :=
  let a := ma s in let b := mb s in let x := mx s in
  let m := mid s in let t := tol s in let t2 := tol2 s in
  let use_para := nltb t (nabs (me s)) in
  let xdiff1 := if use_para then nsub x (mw s) else n0 in
  let xdiff2 := if use_para then nsub x (mv s) else n0 in
  let qsub1 := nmul xdiff1 (nsub (mfx s) (mfv s)) in
  let qsub2 := nmul xdiff2 (nsub (mfx s) (mfw s)) in
  let q := nmul (nofQ 2) (nsub qsub2 qsub1) in
  let use_para := use_para && negb (neqb q n0) in
  let p := if use_para then nsub (nmul xdiff2 qsub2) (nmul xdiff1 qsub1) else n0 in
  let p := if nltb n0 q then nneg p else p in
  let q := nabs q in
  let further := if nleb m x then a else b in
  let gold := nmul gf2 (nsub further x) in
  let st := if use_para then ndiv p q else gold in
  let u_tent := nadd x st in
  let change := use_para && (nltb b u_tent || nltb u_tent a || nltb (nmul (nofQ (1 # 2)) (nabs (me s))) (nabs st)) in
  let st := if change then gold else st in
  let u_tent := if change then nadd x st else u_tent in
  let st := if nltb (nsub u_tent a) t2 || nltb (nsub b u_tent) t2
            then (if nltb x m then t else nneg t) else st in
  if nltb (nabs st) t then (if nltb n0 st then t else nneg t) else st.

(** u, line 98 *)
Definition next_u (s : mst V) : V := nadd (mx s) (step s).

(** the update, lines 105-122 *)
Definition update (s : mst V) (fu : V) : mst V :=
  let x := mx s in let w := mw s in let v := mv s in
  let u := next_u s in
  let less := nleb fu (mfx s) in
  let up := nleb x u in                     (* u >= x *)
  let down := nltb u x in
  let a' := if less && up then x else if negb less && down then u else ma s in
  let b' := if less && down then x else if negb less && up then u else mb s in
  let c1 := less || nleb fu (mfw s) || neqb w x in
  let c2 := nleb fu (mfv s) || neqb v w || neqb v x in
  let wc := nleb fu (mfw s) || neqb w x in
  Mst a' b'
      (if c1 then w else if c2 then u else v)
      (if less then x else if wc then u else w)
      (if less then u else x)
      (if c1 then mfw s else if c2 then fu else mfv s)
      (if less then mfx s else if wc then fu else mfw s)
      (if less then fu else mfx s)
      (md s) (step s).

Variables (log_gold : bool) (F : list V -> M (list V)).

(** what func receives: 10**x with log_gold, lines 50, 103 *)
Definition to_point (x : V) : V := if log_gold then npow10 x else x.

Fixpoint zip_update (ss : list (mst V)) (fus : list V) : list (mst V) :=
  match ss, fus with
  | s :: r, f :: g => update s f :: zip_update r g
  | _, _ => []
  end.

(** Call of func.  A function that returns an array of another shape makes the
    loop's arrays change shape by broadcasting; that is not modelled. *)
Definition evalF (xs : list V) : M (list V) :=
  (fs <- F (map to_point xs) ;; if length fs =? length xs then ret fs else raise Unmodelled)%m.

(** the while loop, lines 66-129; the fuel is maxiter *)
Fixpoint mloop (fuel : nat) (ss : list (mst V)) (evals : list (list V * list V)) : M (mres V) :=
  if forallb converged ss then ret (Mres ss true evals)
  else match fuel with
       | O => ret (Mres ss false evals)
       | S k =>
           let us := map next_u ss in
           (fus <- evalF us ;; mloop k (zip_update ss fus) (evals ++ [(us, fus)]))%m
       end.

(** lines 34-56, for [n] problems with limits [a0], [b0] *)
Definition minit (a0 b0 : V) (f0 : V) : mst V :=
  let x := nadd a0 (nmul gf2 (nsub b0 a0)) in
  Mst a0 b0 x x x f0 f0 f0 n0 n0.

Definition mrun (n : nat) (a0 b0 : V) (maxiter : nat) : M (mres V) :=
  let xs := repeat (nadd a0 (nmul gf2 (nsub b0 a0))) n in
  (f0 <- evalF xs ;; mloop maxiter (map (minit a0 b0) f0) [(xs, f0)])%m.
End Run.

(** minimize, lines 23-134: a run, and the value returned. *)
Definition minimize_run (F : list V -> M (list V)) (n : nat) (lo hi precision mach_eps : V)
    (maxiter : nat) (log_gold : bool) : M (mres V) :=
  let lim v := if log_gold then nlog10 v else v in
  mrun (nsqrt mach_eps) (ndiv precision (nofQ 3)) log_gold F n (lim lo) (lim hi) maxiter.

Definition minimize (F : list V -> M (list V)) (n : nat) (lo hi precision mach_eps : V)
    (maxiter : nat) (log_gold : bool) : M (list V) :=
  (r <- minimize_run F n lo hi precision mach_eps maxiter log_gold ;;
   ret (map (fun s => to_point log_gold (mx s)) (mr_states r)))%m.
End Minimize.
