(** Property theorems C85: significant figures in double precision. *)
From Coq Require Import Reals QArith Qreals Lra Lia.
From Flocq Require Import Core BinarySingleNaN.
From Verif Require Import M_Base M_Num M_NumB M_Nd M_RandVar M_Env S_Digits L_Digits.
Open Scope R_scope.

(** C85.  [delta] bounds the error of the logarithm. *)
Theorem C85_readings : forall (O : NumOps b64t) (Rg : Rng b64t) p delta,
  (1 <= p <= 15)%Z -> 0 <= delta -> powerRZ 10 p * delta <= / 8 -> rounds_like_numpy delta O ->
  forall nm (vals : list b64t) w, (forall x, In x vals -> BinarySingleNaN.is_nan x = false) ->
  exists ys, measure (Instm nm (Some p) None None) vals w = (Ok ys, w) /\ Forall2 (reading p) vals ys.
Proof. exact measure_readings. Qed.

Theorem C85_reading_again : forall (O : NumOps b64t) (Rg : Rng b64t) p delta,
  (1 <= p <= 15)%Z -> 0 <= delta -> powerRZ 10 p * delta <= / 8 -> rounds_like_numpy delta O ->
  forall nm (vals : list b64t) w ys, Forall (plain_value p) vals ->
  measure (Instm nm (Some p) None None) vals w = (Ok ys, w) ->
  measure (Instm nm (Some p) None None) ys w = (Ok ys, w).
Proof. exact measure_twice. Qed.

Theorem C85_monotone : forall (O : NumOps b64t) (Rg : Rng b64t) p delta,
  (1 <= p <= 15)%Z -> 0 <= delta -> powerRZ 10 p * delta <= / 8 -> rounds_like_numpy delta O ->
  forall nm (vals : list b64t) w ys, Forall (plain_value p) vals ->
  measure (Instm nm (Some p) None None) vals w = (Ok ys, w) ->
  forall i j x x' y y', nth_error vals i = Some x -> nth_error vals j = Some x' ->
    nth_error ys i = Some y -> nth_error ys j = Some y' ->
    is_finite x = true -> is_finite x' = true -> B2R x <= B2R x' -> B2R y <= B2R y'.
Proof. exact measure_grows. Qed.

(** The model's own arithmetic, with an exact logarithm. *)
Theorem C85_exact_logarithm : rounds_like_numpy 0 BOps.
Proof. exact numpy_BOps. Qed.

Definition dbl (q : Q) : b64t := b_of_Q q.
#[local] Instance dg_rng : Rng b64t := {| rdraw := fun _ s => (b_of_Z 1, S s); rvalid := fun _ => true |}.
Definition read3 (p : Z) (q : Q) : option SpecFloat.spec_float :=
  match fst (measure (Instm None (Some p) None None) [dbl q] (fun _ => 0%nat)) with
  | Ok [y] => Some (B2SF y)
  | _ => None
  end.

Lemma value_of m q e : Some (Qmult (inject_Z m) (Qpower 2 e)) = Some q -> Q2R q = IZR m * powerRZ 2 e.
Proof.
  intros E. assert (X : Qmult (inject_Z m) (Qpower 2 e) = q) by congruence. rewrite <- X, Q2R_mult. f_equal; [unfold Q2R, inject_Z; cbn [Qnum Qden]; lra|].
  apply (Q2R_power 2 e). lia.
Qed.

(** The nearest number of two digits to the double 1.15 is 1.1, but it reads 1.2. *)
Theorem C85_nearest_figure_refuted :
  read3 2 (115 # 100) = Some (B2SF (dbl (12 # 10))) /\
  Rabs (11 / 10 - B2R (dbl (115 # 100))) < Rabs (12 / 10 - B2R (dbl (115 # 100))).
Proof.
  split; [vm_compute; reflexivity|].
  assert (E : b_to_Q (dbl (115 # 100)) = Some (Qmult (inject_Z 5179139571476070) (Qpower 2 (-52)))) by (vm_compute; reflexivity).
  destruct (to_Q_exact (dbl (115 # 100))) as (q & Q1 & Q2); [vm_compute; reflexivity|]. rewrite E in Q1.
  assert (V : B2R (dbl (115 # 100)) = 5179139571476070 * / 2 ^ 52) by (rewrite <- Q2, (value_of _ _ (-52) Q1); reflexivity). rewrite V.
  replace (2 ^ 52) with 4503599627370496 by ring. rewrite Rabs_left, Rabs_pos_eq; lra.
Qed.

(** The smallest normal double, 2^-1022, read to three digits is NaN. *)
Definition small_double : b64t := @B754_finite 53 1024 false 4503599627370496 (-1074) eq_refl.
Example C85_tiny : tiny 3 small_double /\
  measure (Instm None (Some 3%Z) None None) [small_double] (fun _ => 0%nat) = (Ok [B754_nan], fun _ => 0%nat).
Proof.
  assert (T : tiny 3 small_double).
  { assert (V : B2R small_double = / IZR (2 ^ 1022)).
    { unfold small_double. cbn [B2R cond_Zopp]. unfold F2R. cbn [Fnum Fexp]. change (IZR 4503599627370496) with (IZR (Zpower radix2 52)).
      rewrite IZR_Zpower, <- bpow_plus by lia. change (52 + -1074)%Z with (- (1022))%Z. rewrite bpow_opp. now rewrite <- (IZR_Zpower radix2) by lia. }
    assert (P : 0 < IZR (2 ^ 1022)) by (apply IZR_lt; reflexivity). assert (P' := Rinv_0_lt_compat _ P). unfold tiny. rewrite V. split; [lra|].
    rewrite Rabs_pos_eq by lra. change (3 - 309)%Z with (- (306))%Z. rewrite p10_opp, p10_Z by lia.
    assert (Q : IZR (10 ^ 306) * 8 < IZR (2 ^ 1022) * 7) by (rewrite <- !mult_IZR; apply IZR_lt; vm_compute; reflexivity).
    assert (P2 : 0 < IZR (10 ^ 306)) by (apply IZR_lt; reflexivity).
    apply Rmult_lt_reg_l with (IZR (2 ^ 1022) * IZR (10 ^ 306)); [now apply Rmult_lt_0_compat|].
    replace (IZR (2 ^ 1022) * IZR (10 ^ 306) * / IZR (2 ^ 1022)) with (IZR (10 ^ 306)) by (field; lra).
    replace (IZR (2 ^ 1022) * IZR (10 ^ 306) * (/ IZR (10 ^ 306) * (7 / 8))) with (IZR (2 ^ 1022) * (7 / 8)) by (field; lra). lra. }
  split; [exact T|].
  destruct (C85_readings BOps dg_rng 3 0 ltac:(lia) ltac:(lra) ltac:(lra) C85_exact_logarithm None [small_double] (fun _ => 0%nat)) as (ys & E & F).
  - intros x [<-|[]]. reflexivity.
  - rewrite E. inversion F as [|x y l l' R F' E1 E2]; subst. inversion F'; subst. destruct R as (_ & _ & _ & R). now rewrite (R eq_refl T).
Qed.

(** Readings of 1234.5678, -0.00099996 and 0 to four digits, and of the readings. *)
Example C85_example : exists ys w, measure (Instm None (Some 4%Z) None None) [dbl (12345678 # 10000); dbl (- 99996 # 100000000); dbl 0] (fun _ => 0%nat) = (Ok ys, w) /\
  map B2SF ys = map B2SF [dbl 1235; dbl (- 1 # 1000); dbl 0].
Proof.
  destruct (C85_readings BOps dg_rng 4 0 ltac:(lia) ltac:(lra) ltac:(lra) C85_exact_logarithm None [dbl (12345678 # 10000); dbl (- 99996 # 100000000); dbl 0] (fun _ => 0%nat)) as (ys & E & _).
  - intros x [<-|[<-|[<-|[]]]]; vm_compute; reflexivity.
  - exists ys, (fun _ => 0%nat). split; [exact E|]. 
    assert (Q : match fst (measure (Instm None (Some 4%Z) None None) [dbl (12345678 # 10000); dbl (- 99996 # 100000000); dbl 0] (fun _ => 0%nat)) with
                | Ok zs => map B2SF zs | Err _ => [] end = map B2SF [dbl 1235; dbl (- 1 # 1000); dbl 0]) by (vm_compute; reflexivity).
    rewrite E in Q. exact Q.
Qed.
(** The values of the example are plain. *)
Example C85_plain : plain_value 4 (dbl 1235) /\ plain_value 4 (dbl 0).
Proof.
  split; (split; [vm_compute; reflexivity|]); intros _.
  - right. destruct (to_Q_exact (dbl 1235)) as (q & Q1 & Q2); [vm_compute; reflexivity|].
    assert (E : b_to_Q (dbl 1235) = Some (Qmult (inject_Z 5431587441213440) (Qpower 2 (-42)))) by (vm_compute; reflexivity).
    rewrite E in Q1.
    assert (V : B2R (dbl 1235) = 5431587441213440 * / 2 ^ 42) by (rewrite <- Q2, (value_of _ _ (-42) Q1); reflexivity). unfold middling. rewrite V.
    replace (2 ^ 42) with 4398046511104 by ring. rewrite Rabs_pos_eq by lra. change (4 + 20)%Z with 24%Z. rewrite (p10_Z 24) by lia.
    split; [|apply Rlt_trans with 10000; [lra|apply IZR_lt; reflexivity]].
    apply Rle_trans with (powerRZ 10 0); [apply p10_le; lia|]. change (powerRZ 10 0) with 1. lra.
  - left. reflexivity.
Qed.

Print Assumptions C85_readings.
Print Assumptions C85_reading_again.
Print Assumptions C85_monotone.
Print Assumptions C85_exact_logarithm.
Print Assumptions C85_nearest_figure_refuted.
