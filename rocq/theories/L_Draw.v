(** Lemmas about what the scripts draw. *)
From Coq Require Import QArith Lqa Lia.
From Verif Require Import M_Base M_Num M_Nd M_RandVar M_Latent M_Time M_TestSpec M_Device M_Report M_Env M_Sim M_Demo M_Script
  S_TestSpec S_Sim S_Total S_Rows S_Demo S_Export S_Script S_Series L_Base L_TestSpec L_Rows L_Export L_Export2 L_Demo L_Demo2 L_Demo3 L_Demo4 L_Series L_Script L_Script2 M_Export.
Open Scope nat_scope.

(** ** Lists *)
Lemma map_res_ok {A B} (f : A -> res B) g l : (forall x, In x l -> f x = Ok (g x)) -> map_res f l = Ok (map g l).
Proof.
  induction l as [|x l IH]; intros K; [reflexivity|]. cbn [map_res map]. rewrite (K x (or_introl eq_refl)). cbn [rbind]. rewrite IH; [reflexivity|].
  intros y Hy. apply K. now right.
Qed.
Lemma map_res_inv {A B} (f : A -> res B) : forall l ys, map_res f l = Ok ys -> Forall2 (fun x y => f x = Ok y) l ys.
Proof.
  induction l as [|x l IH]; cbn [map_res]; intros ys E; [injection E as <-; constructor|].
  destruct (f x) as [y|e] eqn:Ex; [|discriminate]. cbn [rbind] in E. destruct (map_res f l) as [zs|e]; [|discriminate]. injection E as <-. constructor; auto.
Qed.
Lemma filter_of_map {A B} (f : B -> bool) (g : A -> B) l : filter f (map g l) = map g (filter (fun x => f (g x)) l).
Proof. induction l as [|x l IH]; [reflexivity|]. cbn. destruct (f (g x)); cbn; now rewrite IH. Qed.
Lemma filter_rel {A B} (P : A -> B -> Prop) f g : (forall a b, P a b -> f a = g b) -> forall l l', Forall2 P l l' -> Forall2 P (filter f l) (filter g l').
Proof.
  intros K l l' F. induction F as [|a b l l' Hab F IH]; [constructor|]. cbn [filter]. rewrite <- (K a b Hab). destruct (f a); auto.
Qed.
Lemma Forall2_map_r {A B C} (P : A -> C -> Prop) (g : B -> C) l l' : Forall2 (fun a b => P a (g b)) l l' -> Forall2 P l (map g l').
Proof. induction 1; cbn; auto. Qed.
Lemma Forall2_same {A B} (P : A -> B -> Prop) g l : (forall x, In x l -> P x (g x)) -> Forall2 P l (map g l).
Proof. induction l as [|x l IH]; intros K; cbn; constructor; [apply K; now left|]. apply IH. intros y Hy. apply K. now right. Qed.

Lemma Forall2_length {A B} {P : A -> B -> Prop} {l l'} : Forall2 P l l' -> length l = length l'.
Proof. induction 1; cbn; auto. Qed.

(** ** Times *)
Lemma q_eqb_refl x : q_eqb x x = true.
Proof. apply q_eqb_iff. reflexivity. Qed.
Definition hourly : row Q -> row Q := in_row UHours.
Definition has_td (r : row Q) : Prop := exists us, r_time r = TD us.
Lemma hours_of us : (td_to_num UHours us == us # an_hour)%Q.
Proof. change (us * 1 * 3600000000 = us * 3600000000)%Z. lia. Qed.
Lemma made_table x k rows : x_meas x = Some rows -> o_hours_table (Made x k) = Ok (map hourly rows).
Proof. intros E. unfold o_hours_table. destruct (convert_ok x (Some "hours"%string) UHours rows eq_refl E) as (s & _ & _ & ->). reflexivity. Qed.
Lemma loaded_table x rows : x_meas x = Some rows -> o_hours_table (Loaded x) = Ok (map hourly rows).
Proof. intros E. unfold o_hours_table. destruct (convert_ok x (Some "hours"%string) UHours rows eq_refl E) as (s & _ & _ & ->). reflexivity. Qed.
Lemma hourly_shows r : has_td r -> shows an_hour r (r_time (hourly r), r_val (hourly r)).
Proof. intros [us E]. exists us, (td_to_num UHours us). split; auto. cbn. rewrite E. split; [reflexivity|]. split; [apply hours_of|reflexivity]. Qed.
Lemma timed_td x rows sums r : timed x rows sums -> In r rows -> has_td r.
Proof. intros (_ & _ & U & _) Hr. destruct (U r Hr) as (us & E & _). now exists us. Qed.

(** ** Averages and ranges *)
Lemma nth_zip f : forall l l' j, length l = length l' -> j < length l -> nth j (zip2 f l l') 0%Q = f (nth j l 0%Q) (nth j l' 0%Q).
Proof.
  unfold zip2. induction l as [|x l IH]; intros [|y l'] j E Hj; cbn in *; try discriminate; try lia. destruct j as [|j]; [reflexivity|]. apply IH; lia.
Qed.
Lemma zip_length f l l' : length l = length l' -> length (zip2 f l l') = length l.
Proof. intros E. unfold zip2. rewrite map_length, combine_length. lia. Qed.
Lemma nadd_eq x y : (nadd x y == x + y)%Q.
Proof. change (nadd x y) with (Qred (x + y)). apply Qred_correct. Qed.
Lemma nminimum_spec x y : (nminimum x y <= x)%Q /\ (nminimum x y <= y)%Q /\ (nminimum x y = x \/ nminimum x y = y).
Proof. unfold nminimum. change (nleb x y) with (q_leb x y). destruct (q_leb_spec x y); repeat split; auto; lra. Qed.
Lemma nmaximum_spec (x y : Q) : (x <= nmaximum x y)%Q /\ (y <= nmaximum x y)%Q /\ (nmaximum x y = x \/ nmaximum x y = y).
Proof.
  unfold nmaximum. change (neqb x x) with (q_eqb x x). change (neqb y y) with (q_eqb y y). change (nleb y x) with (q_leb y x). rewrite !q_eqb_refl.
  destruct (q_leb_spec y x); repeat split; auto; lra.
Qed.
Definition sized (n : nat) (b : band) : Prop := length (b_sum b) = n /\ length (b_min b) = n /\ length (b_max b) = n.
Lemma widen_all_spec n : forall ss b, sized n b -> (forall s, In s ss -> length s = n) -> exists b', widen_all b ss = Ok b' /\ sized n b' /\
  forall j, j < n ->
    (nth j (b_sum b') 0 == nth j (b_sum b) 0 + sum_of (across j ss))%Q /\
    (forall v, In v (across j ss) -> (nth j (b_min b') 0 <= v <= nth j (b_max b') 0)%Q) /\
    (nth j (b_min b') 0 <= nth j (b_min b) 0)%Q /\ (nth j (b_max b) 0 <= nth j (b_max b') 0)%Q /\
    (nth j (b_min b') 0 = nth j (b_min b) 0 \/ In (nth j (b_min b') 0) (across j ss))%Q /\
    (nth j (b_max b') 0 = nth j (b_max b) 0 \/ In (nth j (b_max b') 0) (across j ss))%Q.
Proof.
  induction ss as [|s ss IH]; intros b Sb Ls.
  - exists b. split; [reflexivity|]. split; auto. intros j Hj. cbn. repeat split; auto; try lra; try contradiction.
  - pose proof Sb as (S1 & S2 & S3). pose proof (Ls s (or_introl eq_refl)) as Ln. cbn [widen_all]. unfold widen at 1. rewrite Ln, S1, Nat.eqb_refl. cbn [rbind].
    set (b1 := Band (zip2 nadd (b_sum b) s) (zip2 nminimum (b_min b) s) (zip2 nmaximum (b_max b) s)).
    destruct (IH b1) as (b' & E & Sb' & K).
    + repeat split; unfold b1; cbn [b_sum b_min b_max]; rewrite zip_length; congruence.
    + intros s' Hs. apply Ls. now right.
    + exists b'. split; auto. split; auto. intros j Hj. destruct (K j Hj) as (K1 & K2 & K3 & K4 & K5 & K6). unfold b1 in K1, K3, K4, K5, K6. cbn [b_sum b_min b_max] in K1, K3, K4, K5, K6.
      rewrite nth_zip in K1, K3, K4, K5, K6 by lia. cbn [across map sum_of fold_right In]. fold (across j ss) (sum_of (across j ss)).
      destruct (nminimum_spec (nth j (b_min b) 0%Q) (nth j s 0%Q)) as (M1 & M2 & M3). destruct (nmaximum_spec (nth j (b_max b) 0%Q) (nth j s 0%Q)) as (X1 & X2 & X3).
      split; [rewrite K1, nadd_eq; lra|]. split; [intros v [<-|Hv]; [split; lra|auto]|]. split; [lra|]. split; [lra|]. split.
      * destruct K5 as [K5|K5]; [rewrite K5; destruct M3 as [->| ->]; auto|auto].
      * destruct K6 as [K6|K6]; [rewrite K6; destruct X3 as [->| ->]; auto|auto].
Qed.
Lemma widen_all_lengths : forall ss b b', widen_all b ss = Ok b' -> length (b_min b) = length (b_sum b) -> length (b_max b) = length (b_sum b) ->
  forall s, In s ss -> length s = length (b_sum b).
Proof.
  induction ss as [|s0 ss IH]; intros b b' E L1 L2 s Hs; [destruct Hs|]. destruct Hs as [<-|Hs]; cbn [widen_all] in E; unfold widen at 1 in E; destruct (Nat.eqb (length s0) (length (b_sum b))) eqn:En; try discriminate E;
    apply Nat.eqb_eq in En; auto.
  cbn [rbind] in E. rewrite (IH _ _ E); auto; cbn [b_sum b_min b_max]; rewrite !zip_length; congruence.
Qed.
Lemma nth_error_nth_Q (l : list Q) j v : nth_error l j = Some v -> j < length l /\ nth j l 0%Q = v.
Proof. intros E. split; [apply nth_error_Some; congruence|]. now apply nth_error_nth. Qed.
Lemma nth_repeat_Q (x : Q) : forall n j, j < n -> nth j (repeat x n) 0%Q = x.
Proof. induction n as [|n IH]; intros [|j] Hj; cbn; try lia; auto. apply IH. lia. Qed.
Lemma band_summarises n k ss b : ss <> [] -> (k == inject_Z (Z.of_nat (length ss)))%Q -> widen_all (band0 n) ss = Ok b -> summarises n ss (averaged k b) /\ forall s, In s ss -> length s = n.
Proof.
  intros Ne Ek E. assert (S0 : sized n (band0 n)) by (repeat split; apply repeat_length).
  assert (Ls : forall s, In s ss -> length s = n).
  { intros s Hs. rewrite (widen_all_lengths _ _ _ E); auto; cbn [band0 b_sum b_min b_max]; now rewrite !repeat_length. }
  split; [|exact Ls]. destruct (widen_all_spec n ss _ S0 Ls) as (b' & E' & (S1 & S2 & S3) & K). rewrite E in E'. injection E' as <-.
  unfold summarises. cbn [averaged b_sum b_min b_max]. rewrite map_length. do 3 (split; [assumption|]).
  intros j avg lo hi Ha Hl Hh. apply nth_error_nth_Q in Hl as (Hj & Hl), Hh as (_ & Hh). rewrite nth_error_map in Ha.
  destruct (nth_error (b_sum b) j) as [sm|] eqn:Es; [|discriminate]. injection Ha as <-. apply nth_error_nth_Q in Es as (_ & Es).
  rewrite S2 in Hj. destruct (K j Hj) as (K1 & K2 & K3 & K4 & K5 & K6). cbn [band0 b_sum b_min b_max] in K1, K3, K4, K5, K6. rewrite nth_repeat_Q in K1, K3, K4, K5, K6 by exact Hj.
  rewrite Hl, Hh in *. rewrite Es in K1. change (nofQ 0) with (Qred 0) in K1. change (nofQ 1000) with (Qred 1000) in *. change (nofQ (-1000)) with (Qred (-1000)) in *. change (Qred 0) with 0%Q in *. change (Qred 1000) with 1000%Q in *. change (Qred (-1000)) with (-1000)%Q in *.
  assert (Kp : (0 < inject_Z (Z.of_nat (length ss)))%Q) by (destruct ss; [now destruct Ne|]; unfold Qlt; cbn; lia).
  split.
  - assert (D : (ndiv sm (nofQ k) == sm / k)%Q) by (change (ndiv sm (nofQ k)) with (Qred (sm / Qred k)); now rewrite !Qred_correct).
    rewrite D, Ek, K1. field. lra.
  - split; auto. do 2 (split; [assumption|]). split; intros Hs.
    + destruct K5 as [K5|K5]; [rewrite K5 in Hs; now apply Qlt_irrefl in Hs|]. exists lo. split; [auto|reflexivity].
    + destruct K6 as [K6|K6]; [rewrite K6 in Hs; now apply Qlt_irrefl in Hs|]. exists hi. split; [auto|reflexivity].
Qed.
(** The average lies in the range. *)
Lemma sum_bounds lo hi l : (forall v, In v l -> (lo <= v <= hi)%Q) -> (lo * inject_Z (Z.of_nat (length l)) <= sum_of l <= hi * inject_Z (Z.of_nat (length l)))%Q.
Proof.
  induction l as [|v l IH]; intros K; [change (lo * 0 <= 0 <= hi * 0)%Q; split; lra|]. cbn [length sum_of fold_right]. fold (sum_of l). rewrite Nat2Z.inj_succ, <- Z.add_1_r, inject_Z_plus.
  assert (Kv := K v (or_introl eq_refl)). destruct IH as [A B]; [intros x Hx; apply K; now right|]. change (inject_Z 1) with 1%Q. split; lra.
Qed.
Lemma average_within n ss b : ss <> [] -> summarises n ss b -> forall j avg lo hi, nth_error (b_sum b) j = Some avg -> nth_error (b_min b) j = Some lo -> nth_error (b_max b) j = Some hi ->
  (lo <= avg <= hi)%Q.
Proof.
  intros Ne (_ & _ & _ & K) j avg lo hi A B C. destruct (K j avg lo hi A B C) as (K1 & K2 & _).
  assert (Kp : (0 < inject_Z (Z.of_nat (length ss)))%Q) by (destruct ss; [now destruct Ne|]; unfold Qlt; cbn; lia).
  assert (X := sum_bounds lo hi _ K2). replace (length (across j ss)) with (length ss) in X by (symmetry; apply map_length). rewrite <- K1 in X. destruct X as [X Y].
  split; apply (Qmult_le_r _ _ _ Kp); assumption.
Qed.
