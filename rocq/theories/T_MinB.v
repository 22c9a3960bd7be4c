(** C89: in double precision, where the search for a minimum evaluates its
    function, and what the searches for equivalent times can return. *)
From Coq Require Import Reals QArith Lra Lia.
From Flocq Require Import Core BinarySingleNaN Relative.
From Verif Require Import M_Base M_Num M_Nd M_NumB M_Latent M_Minimize M_Device S_Digits S_MinB L_Base L_Nd L_Digits L_MinB L_MinB2 L_MinB3 L_MinB4 L_MinB5 L_MinB6.
Open Scope R_scope.

(** One problem, any function (its values may be infinite or NaN): it is only
    evaluated at NaN or between the limits, so making it fail everywhere else
    changes nothing; what is found is NaN or between the limits as well, and it is
    never NaN when all values are numbers of moderate size. *)
Theorem C89_one_problem :
  forall log10 pow10 F lo hi precision eps maxiter log_gold w P e,
  sane (Bsqrt mode_NE eps) (Bdiv mode_NE precision (b_of_Q 3)) (limit log_gold log10 lo) (limit log_gold log10 hi) ->
  let range := nan_or_between (val (limit log_gold log10 lo)) (val (limit log_gold log10 hi)) in
  let search := fun G => minimize (H := b_ops log10 pow10) G 1 lo hi precision eps maxiter log_gold w in
  (forall u, range u -> P (received log_gold pow10 u) = true) ->
  search F = search (guarded P e F) /\
  forall xs w', search F = (Ok xs, w') -> exists x, xs = [received log_gold pow10 x] /\ range x.
Proof.
  intros log10 pow10 F lo hi precision eps maxiter lg w P e SN range search HP.
  destruct (run_single log10 pow10 _ _ _ _ SN P e lg F maxiter w HP) as [E1 E2]. split.
  - apply (minimize_guard log10 pow10). exact E1.
  - intros xs w' R. destruct (minimize_ok log10 pow10 _ _ _ _ _ _ _ _ _ _ _ R) as (r & RR & ->).
    destruct (E2 r w' RR) as (s & -> & (_ & _ & X) & _). exists (mx s). split; [reflexivity|exact X].
Qed.
Print Assumptions C89_one_problem.

Theorem C89_one_problem_moderate :
  forall log10 pow10 F lo hi precision eps maxiter log_gold w P e,
  sane (Bsqrt mode_NE eps) (Bdiv mode_NE precision (b_of_Q 3)) (limit log_gold log10 lo) (limit log_gold log10 hi) ->
  values moderate F ->
  let range := between (val (limit log_gold log10 lo)) (val (limit log_gold log10 hi)) in
  let search := fun G => minimize (H := b_ops log10 pow10) G 1 lo hi precision eps maxiter log_gold w in
  (forall u, range u -> P (received log_gold pow10 u) = true) ->
  search F = search (guarded P e F) /\
  forall xs w', search F = (Ok xs, w') -> exists x, xs = [received log_gold pow10 x] /\ range x.
Proof.
  intros log10 pow10 F lo hi precision eps maxiter lg w P e SN VM range search HP.
  destruct (run_single_moderate log10 pow10 _ _ _ _ SN P e lg F maxiter w VM HP) as [E1 E2]. split.
  - apply (minimize_guard log10 pow10). exact E1.
  - intros xs w' R. destruct (minimize_ok log10 pow10 _ _ _ _ _ _ _ _ _ _ _ R) as (r & RR & ->).
    destruct (E2 r w' RR) as (s & -> & (_ & _ & X & _) & _). exists (mx s). split; [reflexivity|exact X].
Qed.
Print Assumptions C89_one_problem_moderate.

(** Arrays of problems of any size: problems that have settled go on while others
    have not, and can leave the limits, but by no more than one tolerance (with an
    eighth of the absolute one for rounding) per round. *)
Theorem C89_arrays :
  forall log10 pow10 F n lo hi precision eps maxiter log_gold w P e B,
  let rel := Bsqrt mode_NE eps in let abs := Bdiv mode_NE precision (b_of_Q 3) in
  let lo' := limit log_gold log10 lo in let hi' := limit log_gold log10 hi in
  let most := INR maxiter * (val rel * B + 9 / 8 * val abs) in
  sane rel abs lo' hi' -> 0 <= B <= 2000000000000 * val abs -> - B <= val lo' - most /\ val hi' + most <= B ->
  let search := fun G => minimize (H := b_ops log10 pow10) G n lo hi precision eps maxiter log_gold w in
  let kept (range : b64t -> Prop) :=
    (forall u, range u -> P (received log_gold pow10 u) = true) ->
    search F = search (guarded P e F) /\
    forall xs w', search F = (Ok xs, w') -> exists us, xs = map (received log_gold pow10) us /\ Forall range us in
  kept (nan_or_between (val lo' - most) (val hi' + most)) /\
  (values moderate F -> kept (between (val lo' - most) (val hi' + most))).
Proof.
  intros log10 pow10 F n lo hi precision eps maxiter lg w P e B rel abs lo' hi' most SN RM WD search kept. split.
  - intros HP. destruct (run_many log10 pow10 _ _ _ _ SN P e lg F B maxiter RM WD n w HP) as [E1 E2]. split.
    + apply (minimize_guard log10 pow10). exact E1.
    + intros xs w' R. destruct (minimize_ok log10 pow10 _ _ _ _ _ _ _ _ _ _ _ R) as (r & RR & ->).
      exists (map mx (mr_states r)). split; [reflexivity|]. apply Forall_map. eapply Forall_impl; [|exact (E2 r w' RR)]. intros s (_ & _ & X). exact X.
  - intros VM HP. destruct (run_many_moderate log10 pow10 _ _ _ _ SN P e lg F B maxiter RM WD n w VM HP) as [E1 E2]. split.
    + apply (minimize_guard log10 pow10). exact E1.
    + intros xs w' R. destruct (minimize_ok log10 pow10 _ _ _ _ _ _ _ _ _ _ _ R) as (r & RR & ->).
      exists (map mx (mr_states r)). split; [reflexivity|]. apply Forall_map. eapply Forall_impl; [|exact (E2 r w' RR)]. intros s (_ & _ & X & _). exact X.
Qed.
Print Assumptions C89_arrays.

(** A problem whose values are never numbers: the first guess is what is found. *)
Theorem C89_never_a_number :
  forall log10 pow10 F n i lo hi precision eps maxiter log_gold w xs w' x,
  (forall pts w w' fs, F pts w = (Ok fs, w') -> forall f, nth_error fs i = Some f -> f = B754_nan) ->
  minimize (H := b_ops log10 pow10) F n lo hi precision eps maxiter log_gold w = (Ok xs, w') -> nth_error xs i = Some x ->
  let lo' := limit log_gold log10 lo in let hi' := limit log_gold log10 hi in
  x = received log_gold pow10 (Bplus mode_NE lo' (Bmult mode_NE (gf2 (H := BOps)) (Bminus mode_NE hi' lo'))).
Proof.
  intros log10 pow10 F n i lo hi precision eps maxiter lg w xs w' x HF R X lo' hi'.
  destruct (minimize_ok log10 pow10 _ _ _ _ _ _ _ _ _ _ _ R) as (r & RR & ->).
  rewrite map_map, nth_error_map in X. destruct (nth_error (mr_states r) i) as [s|] eqn:S; [|discriminate]. injection X as <-.
  exact (f_equal (received lg pow10) (run_nan log10 pow10 _ _ _ _ _ _ _ i _ _ _ _ HF RR s S)).
Qed.
Print Assumptions C89_never_a_number.

(** The library's searches for equivalent times, in the mechanism's time unit: a
    found time is NaN or between 0.000998 and 10020100000, whatever the law; and
    it is a number when all values of the objective are of moderate size. *)
Theorem C89_equivalent_times :
  forall log10 pow10 (m : mech b64t) (deg : pyval b64t) conds lats L C D w p w',
  good_log log10 -> good_pow pow10 -> mc_kind m = KDeg ->
  mech_equiv_time (H := b_ops log10 pow10) m deg conds lats L C D w = (Ok p, w') ->
  exists a xs, to_nd deg = Ok a /\ p = of_nd (Nd (nshape a) xs) /\ Forall (nan_or_between (998 / 1000000) 10020100000) xs /\
    (values moderate (equiv_obj (H := b_ops log10 pow10) m deg a conds lats L C D) -> Forall (between (998 / 1000000) 10020100000) xs).
Proof. intros log10 pow10 m deg conds lats L C D w p w'. apply equiv_times. Qed.
Print Assumptions C89_equivalent_times.

(** A device whose degradation is not a number is given an equivalent time like any
    other: the power of ten of the first guess (about 92), without an error. *)
Theorem C89_degradation_not_a_number :
  forall log10 pow10 (m : mech b64t) (deg : pyval b64t) conds lats L C D w p w' (a : nd b64t) idx,
  mc_kind m = KDeg -> to_nd deg = Ok a -> valid (nshape a) idx -> aget (H := BOps) a idx = B754_nan ->
  mech_equiv_time (H := b_ops log10 pow10) m deg conds lats L C D w = (Ok p, w') ->
  exists xs, p = of_nd (Nd (nshape a) xs) /\ forall x, nth_error xs (flat (nshape a) idx) = Some x ->
    let lo := log10 (b_of_Q (1 # 1000)) in let hi := log10 (b_of_Q 10000000000) in
    x = pow10 (Bplus mode_NE lo (Bmult mode_NE (gf2 (H := BOps)) (Bminus mode_NE hi lo))).
Proof. intros log10 pow10 m deg conds lats L C D w p w' a idx K A VI N. exact (nan_times log10 pow10 m deg conds lats L C D w p w' a idx K A VI N). Qed.
Print Assumptions C89_degradation_not_a_number.

(** Without room for rounding the limits are not kept, although they are over the
    real numbers: a search from 1 to the next number, with a tolerance of half
    their distance, evaluates its function below 1. *)
Definition one_up : b64t := Bplus mode_NE (b_of_Q 1) (b_of_Q (1 # 4503599627370496)).
Definition flat_fun (pts : list b64t) : M (list b64t) := ret (map (fun _ => b_of_Q 0) pts).
Theorem C89_tight_tolerance_refuted :
  exists F lo hi precision eps w,
  val lo < val hi /\ 0 < val (Bdiv mode_NE precision (b_of_Q 3)) /\ values moderate F /\
  let inside := fun u => Bleb lo u && Bleb u hi in
  (exists xs, fst (minimize (H := BOps) F 1 lo hi precision eps 50 false w) = Ok xs) /\
  fst (minimize (H := BOps) (guarded inside ValueError F) 1 lo hi precision eps 50 false w) = Err ValueError.
Proof.
  exists flat_fun, (b_of_Q 1), one_up, (b_of_Q (3 # 9007199254740992)), (b_of_Q 0), (fun _ => O).
  assert (V1 : val (b_of_Q 1) = 1).
  { rewrite <- SF2R_B2SF. set (z := B2SF (b_of_Q 1)). vm_compute in z. unfold z, SF2R, F2R. cbn. lra. }
  assert (V2 : val one_up = 1 + / 4503599627370496).
  { rewrite <- SF2R_B2SF. set (z := B2SF one_up). vm_compute in z. unfold z, SF2R, F2R. cbn. lra. }
  assert (V3 : 0 < val (Bdiv mode_NE (b_of_Q (3 # 9007199254740992)) (b_of_Q 3))).
  { rewrite <- SF2R_B2SF. set (z := B2SF (Bdiv mode_NE _ _)). vm_compute in z. unfold z, SF2R, F2R. cbn. lra. }
  split; [rewrite V1, V2; lra|]. split; [exact V3|]. split.
  { intros pts w w' fs E. injection E as <- <-. apply Forall_map, Forall_forall. intros _ _. split; [reflexivity|]. change (val (b_of_Q 0)) with 0. rewrite Rabs_R0. apply bpow_ge_0. }
  cbv zeta. split.
  - destruct (minimize_total (H := BOps) flat_fun 1) with (lo := b_of_Q 1) (hi := one_up) (prec := b_of_Q (3 # 9007199254740992))
      (eps := b_of_Q 0) (maxiter := 50%nat) (lg := false) (w := fun _ : nat => O) as (xs & E & _).
    + intros pts w PL. eexists. split; [reflexivity|]. now rewrite map_length.
    + exists xs. now rewrite E.
  - vm_compute. reflexivity.
Qed.
Print Assumptions C89_tight_tolerance_refuted.

(** An example: the search for the minimum of a step function from -3 to 10 with
    the library's tolerances. *)
Definition ex_step (pts : list b64t) : M (list b64t) :=
  ret (map (fun x => if Bltb x (b_of_Q 1) then b_of_Q 3 else b_of_Q 1) pts).
Lemma ex_step_moderate : values moderate ex_step.
Proof.
  intros pts w w' fs E. injection E as <- <-. apply Forall_map, Forall_forall. intros x _.
  destruct (Bltb x (b_of_Q 1)); (split; [reflexivity|]; rewrite <- SF2R_B2SF; apply Rle_trans with 4; [|change 4 with (bpow radix2 2); apply bpow_le; lia]).
  - set (z := B2SF (b_of_Q 3)). vm_compute in z. unfold z, SF2R, F2R. cbn. rewrite Rabs_pos_eq by lra. lra.
  - set (z := B2SF (b_of_Q 1)). vm_compute in z. unfold z, SF2R, F2R. cbn. rewrite Rabs_pos_eq by lra. lra.
Qed.
Lemma ex_sane : sane (Bsqrt mode_NE (mach_64bit_eps (H := BOps))) (Bdiv mode_NE (default_precision (H := BOps)) (b_of_Q 3)) (b_of_Q (-3)) (b_of_Q 10).
Proof.
  assert (R := rel0_val (fun x => x) (fun y => y)). assert (A := abs0_val (fun x => x) (fun y => y)).
  change (rel0 (fun x => x) (fun y => y)) with (Bsqrt mode_NE (mach_64bit_eps (H := BOps))) in R.
  change (abs0 (fun x => x) (fun y => y)) with (Bdiv mode_NE (default_precision (H := BOps)) (b_of_Q 3)) in A.
  set (r := Bsqrt mode_NE _) in *. set (a := Bdiv mode_NE default_precision (b_of_Q 3)) in *. clearbody r a.
  assert (V1 : val (b_of_Q (-3)) = - 3).
  { rewrite <- SF2R_B2SF. set (z := B2SF (b_of_Q (-3))). vm_compute in z. unfold z, SF2R, F2R. cbn. lra. }
  assert (V2 : val (b_of_Q 10) = 10).
  { rewrite <- SF2R_B2SF. set (z := B2SF (b_of_Q 10)). vm_compute in z. unfold z, SF2R, F2R. cbn. lra. }
  destruct R as [RF RV], A as [AF AV].
  constructor; [split; [auto|lra]| |reflexivity|reflexivity|rewrite V1, V2; lra|rewrite V1, V2; split; apply Rabs_le; lra].
  split; auto. assert (/ 10 ^ 30 <= / 1000000) by (apply Rinv_le; lra). lra.
Qed.
Example C89_example_one : forall w, exists x,
  minimize (H := BOps) ex_step 1 (b_of_Q (-3)) (b_of_Q 10) (default_precision (H := BOps)) (mach_64bit_eps (H := BOps)) 50 false w = (Ok [x], w) /\ between (-3) 10 x.
Proof.
  intros w. destruct (C89_one_problem_moderate (fun _ => B754_nan) (fun _ => B754_nan) ex_step (b_of_Q (-3)) (b_of_Q 10) (default_precision (H := BOps)) (mach_64bit_eps (H := BOps)) 50 false w
    (fun _ => true) ValueError ex_sane ex_step_moderate (fun _ _ => eq_refl)) as [_ H].
  destruct (minimize_total (H := BOps) ex_step 1) with (lo := b_of_Q (-3)) (hi := b_of_Q 10) (prec := default_precision (H := BOps))
      (eps := mach_64bit_eps (H := BOps)) (maxiter := 50%nat) (lg := false) (w := w) as (xs & E & _).
  { intros pts v PL. eexists. split; [reflexivity|]. now rewrite map_length. }
  destruct (H xs w E) as (x & -> & X). exists x. split; [exact E|]. cbn [limit] in X.
  assert (V1 : val (b_of_Q (-3)) = - 3).
  { rewrite <- SF2R_B2SF. set (z := B2SF (b_of_Q (-3))). vm_compute in z. unfold z, SF2R, F2R. cbn. lra. }
  assert (V2 : val (b_of_Q 10) = 10).
  { rewrite <- SF2R_B2SF. set (z := B2SF (b_of_Q 10)). vm_compute in z. unfold z, SF2R, F2R. cbn. lra. }
  rewrite V1, V2 in X. exact X.
Qed.

(** The correctly rounded logarithm and exponential are good enough, and a linear
    law has equivalent times; degradation that is not a number gets one as well. *)
Definition ex_law : eqn b64t := Eqn ["time"%string] [] None
  (fun args => match dget args "time" with Some (PNum t) => ret (PNum (Bmult mode_NE t (b_of_Q (1 # 2)))) | Some v => ret v | None => raise TypeError end).
Definition ex_mech : mech b64t := Mech KDeg (LMdl ex_law []) (b_of_Q 0) (Some "h"%string).
Example C89_example_time : good_log cr_log /\ good_pow cr_pow /\ forall deg w, exists x,
  mech_equiv_time (H := b_ops cr_log cr_pow) ex_mech (PNum deg) [] [] 1 1 1 w = (Ok (PNum x), w) /\
  nan_or_between (998 / 1000000) 10020100000 x /\
  (deg = B754_nan -> let lo := cr_log (b_of_Q (1 # 1000)) in let hi := cr_log (b_of_Q 10000000000) in
     x = cr_pow (Bplus mode_NE lo (Bmult mode_NE (gf2 (H := BOps)) (Bminus mode_NE hi lo)))).
Proof.
  split; [apply cr_log_good|]. split; [apply cr_pow_good|]. intros deg w.
  assert (E : exists x, mech_equiv_time (H := b_ops cr_log cr_pow) ex_mech (PNum deg) [] [] 1 1 1 w = (Ok (PNum x), w)).
  { unfold mech_equiv_time, bind at 1, lift. cbn [mc_kind ex_mech to_nd ndata length].
    match goal with |- context [minimize ?f 1 ?l ?h ?p ?e 50 true] =>
      assert (TT : forall pts v, length pts = 1%nat -> exists fs, f pts v = (Ok fs, v) /\ length fs = 1%nat);
      [|destruct (minimize_total (H := b_ops cr_log cr_pow) f 1 TT l h p e 50 true w) as (xs & E & L)] end.
    - intros [|t [|]] v PL; try discriminate. eexists. split; reflexivity.
    - unfold bind. rewrite E. destruct xs as [|x [|]]; try discriminate. exists x. reflexivity. }
  destruct E as [x E]. exists x. split; [exact E|]. split.
  - destruct (C89_equivalent_times _ _ _ _ _ _ _ _ _ _ _ _ cr_log_good cr_pow_good (eq_refl : mc_kind ex_mech = KDeg) E) as (a & xs & A & P & F & _).
    injection A as <-. destruct xs as [|y [|]]; try discriminate P. injection P as ->. now inversion F.
  - intros ->. destruct (C89_degradation_not_a_number _ _ _ (PNum (B754_nan : b64t)) _ _ _ _ _ _ _ _ (Nd [] [B754_nan]) [] (eq_refl : mc_kind ex_mech = KDeg) eq_refl valid_nil eq_refl E) as (xs & P & X).
    destruct xs as [|y [|]]; try discriminate P. injection P as ->. apply X. reflexivity.
Qed.
