(** Lemmas about instruments: order of IEEE numbers, significant figures. *)
From Coq Require Import Reals QArith Qreals Lra Lia.
From Flocq Require Import Core BinarySingleNaN.
From Verif Require Import M_Base M_Num M_NumR M_NumB M_Nd M_RandVar M_Env S_Env S_EnvR S_Latent L_Base L_Env.
Open Scope R_scope.

(** ** Orders *)
Lemma ordered_R : ordered R.
Proof.
  split; cbn.
  - intros. apply Rle_bool_true. lra.
  - intros x y _ _. destruct (Rle_dec x y); [left|right]; apply Rle_bool_true; lra.
  - intros x y z _ _ _ A B. apply Rle_bool_true. destruct (Rle_bool_spec x y), (Rle_bool_spec y z); try discriminate. lra.
  - intros x y _ _. unfold Rlt_bool, Rle_bool. rewrite (Rcompare_sym x y). destruct (Rcompare y x); reflexivity.
Qed.

Lemma ordered_Q : ordered Q.
Proof.
  assert (L : forall x y, q_leb x y = true <-> (x <= y)%Q).
  { intros x y. unfold q_leb. rewrite Qle_alt. destruct (Qcompare x y); intuition congruence. }
  split; cbn.
  - intros. apply L. apply Qle_refl.
  - intros x y _ _. destruct (Qlt_le_dec x y); [left|right]; apply L; auto. now apply Qlt_le_weak.
  - intros x y z _ _ _ A B. apply L in A, B. apply L. eapply Qle_trans; eauto.
  - intros x y _ _. unfold q_ltb, q_leb. rewrite <- (Qcompare_antisym x y). destruct (Qcompare x y); reflexivity.
Qed.

(** Any carrier of binary64 numbers whose comparisons are the IEEE ones. *)
Definition ieee_order (O : NumOps b64t) : Prop :=
  (forall x y, neqb x y = Beqb x y) /\ (forall x y, nleb x y = Bleb x y) /\ (forall x y, nltb x y = Bltb x y).

Lemma nan_b (O : NumOps b64t) : ieee_order O -> forall x : b64t, ~ nan x -> BinarySingleNaN.is_nan x = false.
Proof. intros (E & _) x Hx. unfold nan in Hx. rewrite E, Beqb_refl in Hx. destruct (BinarySingleNaN.is_nan x); auto. exfalso. now apply Hx. Qed.

Lemma ordered_B (O : NumOps b64t) : ieee_order O -> ordered b64t.
Proof.
  intros HO. pose proof (nan_b O HO) as N. destruct HO as (E & Le & Lt).
  assert (F : forall x : b64t, BinarySingleNaN.is_nan x = false -> is_finite x = true \/ exists s, x = B754_infinity s).
  { intros [s|s| |s m e p]; cbn; intuition eauto; discriminate. }
  assert (I1 : forall s x, is_finite (x : b64t) = true -> Bleb (B754_infinity s) x = s).
  { intros s [s'|s'| |s' m e p]; cbn; try discriminate; intros _; destruct s; try destruct s'; reflexivity. }
  assert (I2 : forall s x, is_finite (x : b64t) = true -> Bleb x (B754_infinity s) = negb s).
  { intros s [s'|s'| |s' m e p]; cbn; try discriminate; intros _; destruct s; try destruct s'; reflexivity. }
  assert (I3 : forall s s', Bleb (B754_infinity s : b64t) (B754_infinity s' : b64t) = orb s (negb s')).
  { intros [] []; reflexivity. }
  split.
  - intros x Hx. apply N in Hx. rewrite Le. destruct (F x Hx) as [A|[s ->]].
    + rewrite Bleb_correct by auto. apply Rle_bool_true. lra.
    + rewrite I3. destruct s; reflexivity.
  - intros x y Hx Hy. apply N in Hx, Hy. rewrite !Le. destruct (F x Hx) as [A|[s ->]], (F y Hy) as [B|[s' ->]].
    + rewrite !Bleb_correct by auto. destruct (Rle_dec (B2R x) (B2R y)); [left|right]; apply Rle_bool_true; lra.
    + rewrite I1, I2 by auto. destruct s'; auto.
    + rewrite I1, I2 by auto. destruct s; auto.
    + rewrite !I3. destruct s, s'; auto.
  - intros x y z Hx Hy Hz. apply N in Hx, Hy, Hz. rewrite !Le.
    destruct (F x Hx) as [A|[s ->]], (F y Hy) as [B|[s' ->]], (F z Hz) as [C|[s'' ->]];
      rewrite ?I1, ?I2, ?I3, ?Bleb_correct by auto; try (destruct s); try (destruct s'); try (destruct s''); cbn [orb negb]; try congruence; auto.
    2:{ intros _ _. now rewrite I2. }
    intros P Q. apply Rle_bool_true. destruct (Rle_bool_spec (B2R x) (B2R y)), (Rle_bool_spec (B2R y) (B2R z)); try discriminate. lra.
  - intros x y Hx Hy. apply N in Hx, Hy. rewrite Le, Lt. destruct (F x Hx) as [A|[s ->]], (F y Hy) as [B|[s' ->]].
    + rewrite Bleb_correct, Bltb_correct by auto. unfold Rlt_bool, Rle_bool. rewrite (Rcompare_sym (B2R x)). destruct (Rcompare _ _); reflexivity.
    + rewrite I1 by auto. destruct x as [q|q| |q m e p]; try discriminate A; destruct s'; try destruct q; reflexivity.
    + rewrite I2 by auto. destruct y as [q|q| |q m e p]; try discriminate B; destruct s; try destruct q; reflexivity.
    + rewrite I3. destruct s, s'; reflexivity.
Qed.
Lemma ieee_BOps : ieee_order BOps.
Proof. repeat split. Qed.

(** ** Limits *)
Section Lim.
Context {V : Type} `{NumOps V} `{Rng V}.

Lemma clip_within lims (x : V) : ordered V -> nan_free lims -> ~ nan x ->
  within lims (clip (fst lims) (snd lims) x) /\ (within lims x -> clip (fst lims) (snd lims) x = x) /\ ~ nan (clip (fst lims) (snd lims) x).
Proof.
  intros Ho [Nl Nh] Nx. destruct lims as [[l|] [h|]]; cbn [fst snd within] in *.
  - destruct (clip_between l h x Ho (Nl l eq_refl) (Nh h eq_refl) Nx) as (A & B & C). split; auto. split; auto.
    intros W. apply B; auto. unfold nan in Nx. destruct (neqb x x); auto.
  - specialize (Nl l eq_refl). unfold clip, clip_limits, drop_nan. rewrite (is_nan_false l Nl), (is_nan_false x Nx). cbn [orb].
    destruct (nleb l x) eqn:E; [auto|]. split; [apply (ord_refl Ho); auto|]. split; [congruence|auto].
  - specialize (Nh h eq_refl). unfold clip, clip_limits, drop_nan. rewrite (is_nan_false h Nh), (is_nan_false x Nx). cbn [orb].
    destruct (nleb x h) eqn:E; [auto|]. split; [apply (ord_refl Ho); auto|]. split; [congruence|auto].
  - unfold clip, clip_limits, drop_nan. auto.
Qed.
(** Nothing in the range lies between the value and its limited value. *)
Lemma clip_nearest lims (x z : V) : ordered V -> nan_free lims -> ~ nan x -> ~ nan z -> within lims z ->
  (nleb x z = true -> nleb (clip (fst lims) (snd lims) x) z = true) /\ (nleb z x = true -> nleb z (clip (fst lims) (snd lims) x) = true).
Proof.
  intros O [Nl Nh] Nx Nz. destruct lims as [[l|] [h|]]; cbn [fst snd within].
  - specialize (Nl l eq_refl). specialize (Nh h eq_refl).
    assert (K : forall lo hi, ~ nan lo -> ~ nan hi -> nleb lo z = true -> nleb z hi = true ->
      let y := if nleb x hi then (if nleb lo x then x else lo) else hi in
      (nleb x z = true -> nleb y z = true) /\ (nleb z x = true -> nleb z y = true)).
    { intros lo hi Nlo Nhi A B. cbn zeta. split; intros Q.
      - rewrite (ord_trans O x z hi) by auto. destruct (nleb lo x); auto.
      - rewrite (ord_trans O lo z x) by auto. destruct (nleb x hi); auto. }
    assert (Tr : forall p q, ~ nan p -> ~ nan q -> nleb p z = true -> nleb z q = true -> nleb p q = true) by (intros; apply (ord_trans O p z q); auto).
    pose proof (ord_total O l h Nl Nh) as T.
    unfold clip, clip_limits, drop_nan. rewrite !is_nan_false by auto. cbn [orb].
    rewrite (ord_lt O h l), (ord_lt O l h) by auto. unfold between.
    destruct (nleb l h) eqn:A, (nleb h l) eqn:B; cbn [negb]; intros [[C D]|[C D]].
    + apply (K l l); auto. apply (ord_trans O z h l); auto.
    + apply (K l l); auto. apply (ord_trans O l h z); auto.
    + apply (K l h); auto.
    + rewrite (Tr h l Nh Nl C D) in B. discriminate.
    + rewrite (Tr l h Nl Nh C D) in A. discriminate.
    + apply (K h l); auto.
    + destruct T; congruence.
    + destruct T; congruence.
  - specialize (Nl l eq_refl). unfold clip, clip_limits, drop_nan. rewrite (is_nan_false l Nl), (is_nan_false x Nx). cbn [orb].
    destruct (nleb l x) eqn:E; [auto|]. intros Wz. split; [auto|]. intros Zx. rewrite (ord_trans O l z x Nl Nz Nx Wz Zx) in E. discriminate.
  - specialize (Nh h eq_refl). unfold clip, clip_limits, drop_nan. rewrite (is_nan_false h Nh), (is_nan_false x Nx). cbn [orb].
    destruct (nleb x h) eqn:E; [auto|]. intros Wz. split; [|auto]. intros Zx. rewrite (ord_trans O x z h Nx Nz Nh Zx Wz) in E. discriminate.
  - unfold clip, clip_limits, drop_nan. auto.
Qed.
Lemma clip_nan lims (x : V) : nan x -> clip (fst lims) (snd lims) x = x.
Proof.
  intros Nx. apply is_nan_true in Nx. unfold clip. destruct lims as [l h]. cbn [fst snd].
  destruct (clip_limits l h) as [[a|] [b|]]; rewrite ?Nx; reflexivity.
Qed.

Lemma measure_limits (i : instm V) lims vals w ys w' : ordered V -> in_range i = Some lims -> nan_free lims ->
  measure i vals w = (Ok ys, w') ->
  forall k y, nth_error ys k = Some y ->
    (nan y \/ within lims y) /\
    exists x x' r, nth_error vals k = Some x /\ rounded (in_prec i) x' r /\
      (in_err i = None -> x' = x) /\ (forall rv, in_err i = Some rv -> exists ek, x' = nadd x ek) /\
      (nan y -> nan r) /\ (within lims r -> ~ nan r -> y = r) /\ (~ nan r -> nearest lims r y).
Proof.
  intros Ho Er Nf E k y Ey. apply measure_ok in E as (Len & es & _ & E).
  destruct (nth_error vals k) as [x|] eqn:Ex.
  2:{ exfalso. apply nth_error_None in Ex. assert (k < length ys)%nat by (apply nth_error_Some; congruence). lia. }
  destruct (E k x Ex) as (x' & r & y' & A & B & C & D). rewrite Er in C. destruct lims as [l h]. cbn [limited] in C.
  rewrite Ey in D. injection D as <-. subst y. change (clip l h r) with (clip (fst (l, h)) (snd (l, h)) r).
  destruct (nan_dec r) as [Nr|Nr].
  - rewrite (clip_nan (l, h) r Nr). split; auto. exists x, x', r. repeat split; auto.
    + intros En. now rewrite En in A.
    + intros rv' Ee. rewrite Ee in A. destruct A as (ek & _ & A). eauto.
  - destruct (clip_within (l, h) r Ho Nf Nr) as (W & I & Nn). split; auto. exists x, x', r. repeat split; auto.
    + intros En. now rewrite En in A.
    + intros rv' Ee. rewrite Ee in A. destruct A as (ek & _ & A). eauto.
    + intros Q. now apply Nn in Q.
    + apply (clip_nearest (l, h) r z Ho Nf Nr); auto.
    + apply (clip_nearest (l, h) r z Ho Nf Nr); auto.
Qed.
End Lim.

(** ** Significant figures *)
Lemma p10_pos e : 0 < powerRZ 10 e.
Proof. apply powerRZ_lt. lra. Qed.
Lemma p10_add a b : powerRZ 10 (a + b) = powerRZ 10 a * powerRZ 10 b.
Proof. apply powerRZ_add. lra. Qed.
Lemma p10_opp a : powerRZ 10 (- a) = / powerRZ 10 a.
Proof. apply powerRZ_neg'. Qed.
Lemma p10_exp e : powerRZ 10 e = exp (IZR e * ln 10).
Proof. rewrite powerRZ_Rpower by lra. reflexivity. Qed.
Lemma ln10_pos : 0 < ln 10.
Proof. rewrite <- ln_1. apply ln_increasing; lra. Qed.
Lemma p10_le a b : (a <= b)%Z -> powerRZ 10 a <= powerRZ 10 b.
Proof.
  intros L. rewrite !p10_exp. destruct (Z.eq_dec a b) as [->|N]; [lra|]. left. apply exp_increasing.
  apply Rmult_lt_compat_r; [apply ln10_pos|]. apply IZR_lt. lia.
Qed.
Lemma p10_lt_inv a b : powerRZ 10 a < powerRZ 10 b -> (a < b)%Z.
Proof. intros L. destruct (Z_lt_le_dec a b); auto. apply p10_le in l. lra. Qed.
Lemma p10_IZR k : (0 <= k)%Z -> powerRZ 10 k = IZR (10 ^ k).
Proof.
  intros Hk. destruct k as [|p|p]; [reflexivity| |lia]. cbn [powerRZ].
  rewrite pow_IZR. f_equal. rewrite positive_nat_Z. reflexivity.
Qed.

Lemma flog10_magnitude x : x <> 0 -> exists e, r_flog10 x = Some e /\ magnitude x e.
Proof.
  intros Nx. unfold r_flog10. rewrite Req_bool_false by auto. eexists. split; [reflexivity|].
  pose proof ln10_pos as Lp. pose proof (Rabs_pos_lt x Nx) as Ax.
  set (t := ln (Rabs x) / ln 10). assert (T : Rabs x = exp (t * ln 10)) by (unfold t; replace (ln (Rabs x) / ln 10 * ln 10) with (ln (Rabs x)) by (field; lra); now rewrite exp_ln).
  unfold magnitude. rewrite T, !p10_exp. pose proof (Zfloor_lb t). pose proof (Zfloor_ub t). split.
  - destruct (Req_dec (IZR (Zfloor t)) t) as [Q|Q]; [rewrite Q; lra|]. left. apply exp_increasing. apply Rmult_lt_compat_r; lra.
  - apply exp_increasing. apply Rmult_lt_compat_r; auto. rewrite plus_IZR. lra.
Qed.

Lemma magnitude_unique x e e' : magnitude x e -> magnitude x e' -> e = e'.
Proof.
  intros [A B] [A' B']. assert (e < e' + 1)%Z by (apply p10_lt_inv; lra). assert (e' < e + 1)%Z by (apply p10_lt_inv; lra). lia.
Qed.

Lemma ZnE_IZR n : ZnearestE (IZR n) = n.
Proof. apply Zrnd_IZR. apply valid_rnd_N. Qed.
Lemma ZnE_opp x : ZnearestE (- x) = (- ZnearestE x)%Z.
Proof.
  rewrite Znearest_opp. f_equal. unfold Znearest. destruct (Rcompare _ _); auto.
  replace (negb (negb (Z.even (- (Zfloor x + 1))))) with (negb (Z.even (Zfloor x))); auto.
  rewrite Bool.negb_involutive, Z.even_opp, Z.even_add. destruct (Z.even (Zfloor x)); reflexivity.
Qed.
Lemma ZnE_le x y : x <= y -> (ZnearestE x <= ZnearestE y)%Z.
Proof. intros. now apply Zrnd_le; [apply valid_rnd_N|]. Qed.
Lemma ZnE_half x : Rabs (IZR (ZnearestE x) - x) <= / 2.
Proof. rewrite Rabs_minus_sym. apply Znearest_half. Qed.
Lemma ZnE_near x m : Rabs (IZR (ZnearestE x) - x) <= Rabs (IZR m - x).
Proof.
  destruct (Z.eq_dec m (ZnearestE x)) as [->|N]; [lra|]. pose proof (ZnE_half x) as Hh.
  assert (1 <= Rabs (IZR m - IZR (ZnearestE x))).
  { rewrite <- minus_IZR, <- abs_IZR. apply IZR_le. lia. }
  assert (Rabs (IZR m - IZR (ZnearestE x)) <= Rabs (IZR m - x) + Rabs (IZR (ZnearestE x) - x)).
  { replace (IZR m - IZR (ZnearestE x)) with ((IZR m - x) - (IZR (ZnearestE x) - x)) by ring. apply Rabs_triang_le || idtac.
    unfold Rminus at 1. eapply Rle_trans; [apply Rabs_triang|]. rewrite Rabs_Ropp. lra. }
  lra.
Qed.

(** The reading of one value. *)
Definition reading (p : Z) (x : R) : R :=
  match r_flog10 x with Some e => r_round x (p - e - 1) | None => x end.

Lemma scaled_range p e x : magnitude x e -> powerRZ 10 (p - 1) <= Rabs (x * powerRZ 10 (p - e - 1)) < powerRZ 10 p.
Proof.
  intros [A B]. rewrite Rabs_mult, (Rabs_pos_eq (powerRZ 10 (p - e - 1))) by (left; apply p10_pos).
  pose proof (p10_pos (p - e - 1)). split.
  - replace (p - 1)%Z with (e + (p - e - 1))%Z by lia. rewrite p10_add. apply Rmult_le_compat_r; lra.
  - replace p with ((e + 1) + (p - e - 1))%Z at 2 by lia. rewrite p10_add. apply Rmult_lt_compat_r; lra.
Qed.

Lemma round_val x d : r_round x d = IZR (ZnearestE (x * powerRZ 10 d)) * powerRZ 10 (- d).
Proof. unfold r_round, r_pow10, Rdiv. now rewrite p10_opp. Qed.

Lemma reading_opp p x : reading p (- x) = - reading p x.
Proof.
  unfold reading. destruct (Req_dec x 0) as [->|N].
  - unfold r_flog10. rewrite Ropp_0, Req_bool_true by auto. ring.
  - assert (r_flog10 (- x) = r_flog10 x) as ->.
    { unfold r_flog10. rewrite !Req_bool_false, Rabs_Ropp by lra. reflexivity. }
    destruct (flog10_magnitude x N) as (e & -> & _). rewrite !round_val.
    replace (- x * powerRZ 10 (p - e - 1)) with (- (x * powerRZ 10 (p - e - 1))) by ring. rewrite ZnE_opp, opp_IZR. ring.
Qed.

(** positive values *)
Lemma reading_pos p e x : (0 < p)%Z -> 0 < x -> magnitude x e ->
  exists n, reading p x = IZR n * powerRZ 10 (e - p + 1) /\ (10 ^ (p - 1) <= n <= 10 ^ p)%Z /\ n = ZnearestE (x * powerRZ 10 (p - e - 1)).
Proof.
  intros Hp Hx M. unfold reading. destruct (flog10_magnitude x ltac:(lra)) as (e' & -> & M').
  rewrite (magnitude_unique _ _ _ M' M). eexists. split; [rewrite round_val; do 2 f_equal; lia|]. split; auto.
  pose proof (scaled_range p e x M) as [A B]. rewrite Rabs_pos_eq in A, B by (apply Rmult_le_pos; [lra|left; apply p10_pos]).
  rewrite (p10_IZR (p - 1)) in A by lia. rewrite (p10_IZR p) in B by lia. split.
  - rewrite <- (ZnE_IZR (10 ^ (p - 1))). now apply ZnE_le.
  - rewrite <- (ZnE_IZR (10 ^ p)). apply ZnE_le. lra.
Qed.

Lemma reading_bounds p e x : (0 < p)%Z -> 0 < x -> magnitude x e -> powerRZ 10 e <= reading p x <= powerRZ 10 (e + 1).
Proof.
  intros Hp Hx M. destruct (reading_pos p e x Hp Hx M) as (n & -> & [A B] & _). apply IZR_le in A, B.
  rewrite <- p10_IZR in A by lia. rewrite <- p10_IZR in B by lia. pose proof (p10_pos (e - p + 1)). split.
  - replace e with ((p - 1) + (e - p + 1))%Z at 1 by lia. rewrite (p10_add (p - 1) (e - p + 1)). apply Rmult_le_compat_r; lra.
  - replace (e + 1)%Z with (p + (e - p + 1))%Z by lia. rewrite (p10_add p (e - p + 1)). apply Rmult_le_compat_r; lra.
Qed.

Lemma reading_fix p x : (0 < p)%Z -> 0 < x -> reading p (reading p x) = reading p x.
Proof.
  intros Hp Hx. destruct (flog10_magnitude x ltac:(lra)) as (e & _ & M).
  destruct (reading_pos p e x Hp Hx M) as (n & E & [A B] & _). pose proof (reading_bounds p e x Hp Hx M) as [C D].
  pose proof (p10_pos e). rewrite E in *.
  destruct (Z.eq_dec n (10 ^ p)) as [->|N].
  - assert (Y : IZR (10 ^ p) * powerRZ 10 (e - p + 1) = powerRZ 10 (e + 1)) by (rewrite <- p10_IZR by lia; rewrite <- p10_add; f_equal; lia).
    rewrite Y. assert (M' : magnitude (powerRZ 10 (e + 1)) (e + 1)).
    { unfold magnitude. rewrite Rabs_pos_eq by (left; apply p10_pos). split; [lra|]. rewrite (p10_add (e + 1) 1). pose proof (p10_pos (e + 1)) as Pp. revert Pp. generalize (powerRZ 10 (e + 1)). intros z Pp. rewrite powerRZ_1. lra. }
    destruct (reading_pos p (e + 1) _ Hp (p10_pos (e + 1)) M') as (n' & -> & _ & ->). rewrite <- p10_add.
    replace (e + 1 + (p - (e + 1) - 1))%Z with (p - 1)%Z by lia. rewrite p10_IZR, ZnE_IZR by lia. rewrite <- p10_IZR by lia.
    rewrite <- p10_add. f_equal. lia.
  - assert (Rn : IZR n * powerRZ 10 (e - p + 1) < powerRZ 10 (e + 1)).
    { replace (e + 1)%Z with (p + (e - p + 1))%Z by lia. rewrite (p10_add p (e - p + 1)). apply Rmult_lt_compat_r; [apply p10_pos|]. rewrite p10_IZR by lia. apply IZR_lt. lia. }
    set (y := IZR n * powerRZ 10 (e - p + 1)) in *.
    assert (M' : magnitude y e) by (unfold magnitude; rewrite Rabs_pos_eq by lra; lra).
    destruct (reading_pos p e y Hp ltac:(lra) M') as (n' & -> & _ & ->). unfold y.
    replace (IZR n * powerRZ 10 (e - p + 1) * powerRZ 10 (p - e - 1)) with (IZR n); [now rewrite ZnE_IZR|].
    rewrite Rmult_assoc, <- p10_add. replace (e - p + 1 + (p - e - 1))%Z with 0%Z by lia. cbn. ring.
Qed.

Lemma reading_0 p : reading p 0 = 0.
Proof. unfold reading, r_flog10. now rewrite Req_bool_true. Qed.

Lemma reading_idem p x : (0 < p)%Z -> reading p (reading p x) = reading p x.
Proof.
  intros Hp. destruct (Rtotal_order x 0) as [L|[->|G]].
  - replace x with (- - x) by ring. rewrite (reading_opp p (- x)), (reading_opp p (reading p (- x))). f_equal. apply reading_fix; [auto|lra].
  - now rewrite !reading_0.
  - now apply reading_fix.
Qed.

Lemma reading_mono_pos p x y : (0 < p)%Z -> 0 < x -> x <= y -> reading p x <= reading p y.
Proof.
  intros Hp Hx L. destruct (flog10_magnitude x ltac:(lra)) as (e & _ & M). destruct (flog10_magnitude y ltac:(lra)) as (e' & _ & M').
  assert (e < e' + 1)%Z.
  { apply p10_lt_inv. destruct M as [A _], M' as [_ B]. rewrite Rabs_pos_eq in A, B by lra. lra. }
  destruct (Z.eq_dec e e') as [->|N].
  - destruct (reading_pos p e' x Hp Hx M) as (n & -> & _ & ->). destruct (reading_pos p e' y Hp ltac:(lra) M') as (n' & -> & _ & ->).
    apply Rmult_le_compat_r; [left; apply p10_pos|]. apply IZR_le, ZnE_le. apply Rmult_le_compat_r; [left; apply p10_pos|auto].
  - pose proof (reading_bounds p e x Hp Hx M). pose proof (reading_bounds p e' y Hp ltac:(lra) M').
    assert (powerRZ 10 (e + 1) <= powerRZ 10 e') by (apply p10_le; lia). lra.
Qed.
Lemma reading_sign p x : (0 < p)%Z -> 0 < x -> 0 < reading p x.
Proof.
  intros Hp Hx. destruct (flog10_magnitude x ltac:(lra)) as (e & _ & M). pose proof (reading_bounds p e x Hp Hx M).
  pose proof (p10_pos e). lra.
Qed.
Lemma reading_mono p x y : (0 < p)%Z -> x <= y -> reading p x <= reading p y.
Proof.
  intros Hp L. destruct (Rlt_le_dec 0 x); [now apply reading_mono_pos|]. destruct (Rlt_le_dec y 0).
  - replace x with (- - x) by ring. replace y with (- - y) by ring. rewrite (reading_opp p (- x)), (reading_opp p (- y)).
    apply Ropp_le_contravar. apply reading_mono_pos; auto; lra.
  - apply Rle_trans with 0.
    + destruct (Req_dec x 0) as [->|]; [rewrite reading_0; lra|]. replace x with (- - x) by ring. rewrite reading_opp.
      pose proof (reading_sign p (- x) Hp ltac:(lra)). lra.
    + destruct (Req_dec y 0) as [->|]; [rewrite reading_0; lra|]. pose proof (reading_sign p y Hp ltac:(lra)). lra.
Qed.

Lemma reading_sig p x : (0 < p)%Z -> sig_figs p x (reading p x).
Proof.
  intros Hp. split; [intros ->; apply reading_0|]. intros N. destruct (flog10_magnitude x N) as (e & Ee & M).
  exists e, (ZnearestE (x * powerRZ 10 (p - e - 1))). split; auto. cbn zeta.
  set (u := powerRZ 10 (e - p + 1)). pose proof (p10_pos (e - p + 1)) as Up. fold u in Up.
  assert (Y : reading p x = IZR (ZnearestE (x * powerRZ 10 (p - e - 1))) * u).
  { unfold reading. rewrite Ee, round_val. unfold u. do 2 f_equal. lia. }
  assert (X : x = x * powerRZ 10 (p - e - 1) * u).
  { unfold u. rewrite Rmult_assoc, <- p10_add. replace (p - e - 1 + (e - p + 1))%Z with 0%Z by lia. cbn. ring. }
  assert (D : forall z, Rabs (z * u - x) = Rabs (z - x * powerRZ 10 (p - e - 1)) * u).
  { intros z. rewrite X at 1. replace (z * u - x * powerRZ 10 (p - e - 1) * u) with ((z - x * powerRZ 10 (p - e - 1)) * u) by ring.
    rewrite Rabs_mult, (Rabs_pos_eq u) by lra. reflexivity. }
  split; auto. rewrite Y. split; [|split].
  - intros m. rewrite !D. apply Rmult_le_compat_r; [lra|]. apply ZnE_near.
  - rewrite D. unfold Rdiv. rewrite Rmult_comm. apply Rmult_le_compat_l; [lra|]. apply ZnE_half.
  - rewrite <- Y. destruct (Rlt_le_dec 0 x).
    + apply Rmult_lt_0_compat; auto. now apply reading_sign.
    + replace x with (- - x) at 2 by ring. rewrite reading_opp. pose proof (reading_sign p (- x) Hp ltac:(lra)).
      replace (x * - reading p (- x)) with ((- x) * reading p (- x)) by ring. apply Rmult_lt_0_compat; lra.
Qed.

Section Meas.
Context `{Rng R}.
Lemma measure_sig n p vals w : (0 < p)%Z -> measure (Instm n (Some p) None None) vals w = (Ok (map (reading p) vals), w).
Proof.
  intros Hp. unfold measure. cbn [in_err in_prec in_range]. destruct (Z.eqb_spec p 0) as [|_]; [lia|].
  assert (E : map_res (round_sig p) vals = Ok (map (reading p) vals)).
  { induction vals as [|x l IH]; auto. cbn [map_res map]. rewrite IH. unfold round_sig, reading. cbn [neqb nisinf nflog10 nround ROps n0 nofQ].
    destruct (Req_bool_spec x (Q2R 0)) as [E|E].
    - rewrite RMicromega.Q2R_0 in E. subst x. unfold r_flog10. rewrite Req_bool_true by auto. reflexivity.
    - rewrite RMicromega.Q2R_0 in E. cbn [orb]. destruct (flog10_magnitude x E) as (e & -> & _). reflexivity. }
  unfold bind, ret, lift. now rewrite E.
Qed.
End Meas.
