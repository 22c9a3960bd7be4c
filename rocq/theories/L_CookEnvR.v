(** The prebuilt environments in exact arithmetic. *)
From Coq Require Import Reals QArith Qreals Lra Lia.
From Flocq Require Import Core.
From Verif Require Import M_Base M_Num M_NumR M_Nd M_RandVar M_Latent M_Device M_Report M_Env M_CookEnv
  S_Latent S_Env S_EnvR S_Sim S_CookEnv L_Base L_Nd L_Latent L_Device L_Env L_EnvR L_CookEnv.
Open Scope R_scope.

Lemma reading_abs_bound p e x : (0 < p)%Z -> magnitude x e -> Rabs (reading p x) <= powerRZ 10 (e + 1).
Proof.
  intros Hp M. pose proof (p10_pos e). assert (Nx : x <> 0) by (intros ->; destruct M as [M _]; rewrite Rabs_R0 in M; lra).
  destruct (Rlt_le_dec 0 x) as [G|L].
  - pose proof (reading_bounds p e x Hp G M). rewrite Rabs_pos_eq; lra.
  - replace x with (- - x) by ring. rewrite reading_opp, Rabs_Ropp.
    assert (M' : magnitude (- x) e) by (unfold magnitude in *; now rewrite Rabs_Ropp).
    pose proof (reading_bounds p e (- x) Hp ltac:(lra) M'). rewrite Rabs_pos_eq; lra.
Qed.

(** A value of at least 10^k read to [p] figures is a multiple of 10^(k-p+1). *)
Lemma reading_multiple p k x : (0 < p)%Z -> powerRZ 10 k <= Rabs (reading p x) -> multiple_of (powerRZ 10 (k - p + 1)) (reading p x).
Proof.
  intros Hp Hk. destruct (Req_dec x 0) as [->|Nx].
  { rewrite reading_0, Rabs_R0 in Hk. pose proof (p10_pos k). lra. }
  destruct (reading_sig p x Hp) as [_ S]. destruct (S Nx) as (e & n & M & Y & _). cbn zeta in Y.
  pose proof (reading_abs_bound p e x Hp M) as B.
  destruct (Z_lt_le_dec e k) as [L|G].
  - assert (k = e + 1)%Z.
    { assert (k < e + 2)%Z; [|lia]. apply p10_lt_inv. eapply Rle_lt_trans; [exact Hk|]. eapply Rle_lt_trans; [exact B|].
      replace (e + 2)%Z with (e + 1 + 1)%Z by lia. rewrite (p10_add (e + 1) 1), powerRZ_1. pose proof (p10_pos (e + 1)). lra. }
    subst k. assert (A : Rabs (reading p x) = powerRZ 10 (e + 1)) by lra.
    assert (Q : powerRZ 10 (e + 1) = IZR (10 ^ p) * powerRZ 10 (e + 1 - p)).
    { rewrite <- p10_IZR by lia. rewrite <- p10_add. f_equal. lia. }
    assert (Q2 : powerRZ 10 (e + 1 - p) = powerRZ 10 (e + 1 - p + 1) / 10) by (rewrite (p10_add (e + 1 - p) 1), powerRZ_1; lra).
    assert (Q3 : IZR (10 ^ p) = 10 * IZR (10 ^ (p - 1))).
    { replace p with (1 + (p - 1))%Z at 1 by lia. rewrite Z.pow_add_r by lia. rewrite mult_IZR. reflexivity. }
    unfold Rabs in A. destruct (Rcase_abs (reading p x)).
    + exists (- 10 ^ (p - 1))%Z. rewrite opp_IZR. apply Ropp_eq_compat in A. rewrite Ropp_involutive in A. rewrite A, Q, Q2, Q3. field.
    + exists (10 ^ (p - 1))%Z. rewrite A, Q, Q2, Q3. field.
  - exists (n * 10 ^ (e - k))%Z. rewrite Y, mult_IZR, <- p10_IZR by lia. rewrite Rmult_assoc, <- p10_add. do 2 f_equal. lia.
Qed.

Lemma clip_R l h r : l <= h -> clip (Some l) (Some h) r = Rmax l (Rmin h r).
Proof.
  intros L. unfold clip, clip_limits, drop_nan, is_nan. cbn. rewrite !Req_bool_true by auto. cbn [negb orb].
  rewrite (Rlt_bool_false h l) by auto. destruct (Rlt_bool_spec l h) as [A|A].
  - destruct (Rle_bool_spec r h); [rewrite Rmin_right by auto|rewrite Rmin_left, Rmax_right by lra; reflexivity].
    destruct (Rle_bool_spec l r); [rewrite Rmax_right|rewrite Rmax_left]; lra.
  - assert (l = h) by lra. subst h. destruct (Rle_bool_spec r l); [rewrite Rmin_right by auto|rewrite Rmin_left, Rmax_right by lra; reflexivity].
    destruct (Rle_bool_spec l r); [rewrite Rmax_right|rewrite Rmax_left]; lra.
Qed.

Lemma rounded_R p (x r : R) : (0 < p)%Z -> rounded (Some p) x r -> r = reading p x.
Proof.
  intros Hp E. unfold rounded in E. destruct p as [|p|p]; try lia. unfold reading.
  destruct E as [[A ->]|[[A _]|(A & _ & e & B & ->)]].
  - cbn [neqb ROps n0 nofQ] in A. destruct (Req_bool_spec x (Q2R 0)) as [Q|Q]; [|discriminate]. rewrite RMicromega.Q2R_0 in Q. subst x.
    unfold r_flog10. rewrite Req_bool_true; auto.
  - discriminate A.
  - cbn in B. rewrite B. reflexivity.
Qed.

Section E.
Context {R0 : Rng R}.
Lemma measured (i : instm R) p rv lo hi vals w ys w' : (0 < p)%Z -> lo <= hi ->
  in_prec i = Some p -> in_err i = Some rv -> in_range i = Some (Some lo, Some hi) ->
  measure i vals w = (Ok ys, w') ->
  length ys = length vals /\ exists es, reads rv (length vals) w es w' /\
    forall k x y, nth_error vals k = Some x -> nth_error ys k = Some y -> exists err,
      nth_error es k = Some err /\ y = Rmax lo (Rmin hi (reading p (x + err))).
Proof.
  intros Hp Hl Ep Ee Er E. apply measure_ok in E as (Len & es & Re & El). rewrite Ee in Re. split; auto. exists es. split; auto.
  intros k x y Hx Hy. destruct (El k x Hx) as (x' & r & y' & A & B & C & D). rewrite Ee in A. destruct A as (err & A & ->).
  rewrite Hy in D. injection D as <-. exists err. split; auto. rewrite Er in C. cbn in C. subst y. rewrite Ep in B.
  apply rounded_R in B; auto. subst r. now apply clip_R.
Qed.

Lemma limit_cases lo hi r : lo <= hi -> let y := Rmax lo (Rmin hi r) in lo <= y <= hi /\ (y = r \/ y = lo \/ y = hi).
Proof.
  intros L. cbn zeta. unfold Rmax, Rmin. destruct (Rle_dec hi r), (Rle_dec lo _); try lra; (split; [lra|]); auto.
Qed.

Lemma q2r (a : Z) (b : positive) : Q2R (a # b) = IZR a / IZR (Zpos b).
Proof. reflexivity. Qed.

Lemma temp_readings g e vals w ys w' : volt_and_temp_env g = Ok e -> measure_with e "temp" vals w = (Ok ys, w') ->
  length ys = length vals /\ (exists es, reads (Rv (g + 7)%nat (DNormal (- 27315 / 100) (2 / 10)) None) (length vals) w es w' /\
    forall k x y, nth_error vals k = Some x -> nth_error ys k = Some y -> exists err, nth_error es k = Some err /\ reads_as 2 (-40) 180 x err y) /\
  forall y, In y ys -> (10 <= Rabs y -> multiple_of 1 y) /\ (100 <= Rabs y -> multiple_of 10 y).
Proof.
  intros Ee E. cbn in Ee. injection Ee as <-. unfold measure_with in E. cbn in E. unfold bind, lift in E.
  eapply (measured _ 2 _ (Q2R (-40)) (Q2R 180)) in E; try reflexivity; try lia.
  2:{ unfold Q2R; cbn; lra. }
  destruct E as (Len & es & Re & El). split; auto.
  assert (L40 : Q2R (-40) = -40) by (unfold Q2R; cbn; lra). assert (L180 : Q2R 180 = 180) by (unfold Q2R; cbn; lra). rewrite L40, L180 in El. split.
  - exists es. split; [exact Re|]. intros k x y Hx Hy. destruct (El k x y Hx Hy) as (err & A & B).
    exists err. split; auto. exists (reading 2 (x + err)). split; [apply reading_sig; lia|auto].
  - intros y Hy. apply In_nth_error in Hy as [k Hk]. destruct (nth_error vals k) as [x|] eqn:Hx.
    2:{ apply nth_error_None in Hx. assert (k < length ys)%nat by (apply nth_error_Some; congruence). lia. }
    destruct (El k x y Hx Hk) as (err & _ & ->). destruct (limit_cases (-40) 180 (reading 2 (x + err)) ltac:(lra)) as [_ [Q|[Q|Q]]]; rewrite Q.
    + split; intros G.
      * change 1 with (powerRZ 10 (1 - 2 + 1)). apply (reading_multiple 2 1); [lia|]. rewrite powerRZ_1. exact G.
      * rewrite <- (powerRZ_1 10) at 1. apply (reading_multiple 2 2); [lia|]. change 2%Z with (1 + 1)%Z at 1. rewrite (p10_add 1 1), powerRZ_1. lra.
    + split; intros G; [exists (-40)%Z; lra|]. exists (-4)%Z. lra.
    + split; intros G; [exists 180%Z; lra|]. exists 18%Z. lra.
Qed.

Lemma vdd_readings g e vals w ys w' : volt_and_temp_env g = Ok e -> measure_with e "vdd" vals w = (Ok ys, w') ->
  length ys = length vals /\ (exists es, reads (Rv (g + 6)%nat (DNormal 0 (2 / 10000)) None) (length vals) w es w' /\
    forall k x y, nth_error vals k = Some x -> nth_error ys k = Some y -> exists err, nth_error es k = Some err /\ reads_as 3 0 12 x err y) /\
  forall y, In y ys -> (1 <= Rabs y -> multiple_of (1 / 100) y) /\ (10 <= Rabs y -> multiple_of (1 / 10) y).
Proof.
  intros Ee E. cbn in Ee. injection Ee as <-. unfold measure_with in E. cbn in E. unfold bind, lift in E.
  eapply (measured _ 3 _ (Q2R 0) (Q2R 12)) in E; try reflexivity; try lia.
  2:{ unfold Q2R; cbn; lra. }
  destruct E as (Len & es & Re & El). split; auto.
  assert (L0 : Q2R 0 = 0) by (unfold Q2R; cbn; lra). assert (L12 : Q2R 12 = 12) by (unfold Q2R; cbn; lra). rewrite L0, L12 in El. split.
  - exists es. split; [rewrite <- L0; exact Re|]. intros k x y Hx Hy. destruct (El k x y Hx Hy) as (err & A & B).
    exists err. split; auto. exists (reading 3 (x + err)). split; [apply reading_sig; lia|auto].
  - intros y Hy. apply In_nth_error in Hy as [k Hk]. destruct (nth_error vals k) as [x|] eqn:Hx.
    2:{ apply nth_error_None in Hx. assert (k < length ys)%nat by (apply nth_error_Some; congruence). lia. }
    destruct (El k x y Hx Hk) as (err & _ & ->). destruct (limit_cases 0 12 (reading 3 (x + err)) ltac:(lra)) as [_ [Q|[Q|Q]]]; rewrite Q.
    + split; intros G.
      * replace (1 / 100) with (powerRZ 10 (0 - 3 + 1)). { apply (reading_multiple 3 0); [lia|]. rewrite powerRZ_O. lra. } { change (0 - 3 + 1)%Z with (- (1 + 1))%Z. rewrite p10_opp, (p10_add 1 1), powerRZ_1. lra. }
      * replace (1 / 10) with (powerRZ 10 (1 - 3 + 1)). { apply (reading_multiple 3 1); [lia|]. rewrite powerRZ_1. lra. } { change (1 - 3 + 1)%Z with (- (1))%Z. rewrite p10_opp, powerRZ_1. lra. }
    + rewrite Rabs_R0. split; intros G; lra.
    + split; intros G; [exists 1200%Z; lra|]. exists 120%Z. lra.
Qed.
End E.
