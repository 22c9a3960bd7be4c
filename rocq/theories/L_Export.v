(** Lemmas about numbers and times in exported reports. *)
From Coq Require Import QArith Qround Qabs Qpower Lqa.
From Verif Require Import M_Base M_Num M_Time S_Time L_Time M_TestSpec M_Report M_Export S_Export L_Base.
Open Scope Z_scope.

Lemma q_ltb_iff x y : q_ltb x y = true <-> (x < y)%Q.
Proof. unfold q_ltb. rewrite Qlt_alt. destruct (x ?= y)%Q; split; congruence. Qed.
Lemma q_leb_iff x y : q_leb x y = true <-> (x <= y)%Q.
Proof. unfold q_leb. rewrite Qle_alt. destruct (x ?= y)%Q; split; congruence. Qed.
Lemma q_eqb_iff x y : q_eqb x y = true <-> (x == y)%Q.
Proof. unfold q_eqb. rewrite Qeq_alt. destruct (x ?= y)%Q; split; congruence. Qed.
Lemma q_ltb_spec x y : reflect (x < y)%Q (q_ltb x y).
Proof. apply iff_reflect. symmetry. apply q_ltb_iff. Qed.
Lemma q_leb_spec x y : reflect (x <= y)%Q (q_leb x y).
Proof. apply iff_reflect. symmetry. apply q_leb_iff. Qed.
Lemma q_eqb_spec x y : reflect (x == y)%Q (q_eqb x y).
Proof. apply iff_reflect. symmetry. apply q_eqb_iff. Qed.

(** ** Powers of ten *)
Lemma p10_pos z : (0 < q_pow10 z)%Q.
Proof. apply Qpower_0_lt. reflexivity. Qed.
Lemma p10_succ z : (q_pow10 (z + 1) == 10 * q_pow10 z)%Q.
Proof. unfold q_pow10. rewrite Qpower_plus by (intros E; discriminate E). cbn. ring. Qed.
Lemma p10_mul a b : (q_pow10 a * q_pow10 b == q_pow10 (a + b))%Q.
Proof. unfold q_pow10. now rewrite Qpower_plus by (intros E; discriminate E). Qed.
Lemma p10_nat (n : nat) : (q_pow10 (Z.of_nat n) == inject_Z (10 ^ Z.of_nat n))%Q.
Proof.
  induction n as [|n IH]; [reflexivity|]. rewrite Nat2Z.inj_succ, <- Z.add_1_r, p10_succ, IH, Z.pow_add_r, inject_Z_mult by lia.
  change (inject_Z (10 ^ 1)) with 10%Q. ring.
Qed.
Lemma p10_Z z : 0 <= z -> (q_pow10 z == inject_Z (10 ^ z))%Q.
Proof. intros H. rewrite <- (Z2Nat.id z H). apply p10_nat. Qed.
Lemma p10_inv z : (q_pow10 (- z) * q_pow10 z == 1)%Q.
Proof. rewrite p10_mul. replace (- z + z) with 0 by lia. reflexivity. Qed.

Lemma flog_up fuel : forall x e, (q_pow10 e <= x)%Q -> (x < q_pow10 (e + Z.of_nat fuel + 1))%Q ->
  exists k, q_flog10_up fuel x e = k /\ (q_pow10 k <= x < q_pow10 (k + 1))%Q.
Proof.
  induction fuel as [|n IH]; intros x e L U.
  - exists e. split; [reflexivity|]. split; auto. now replace (e + 1) with (e + Z.of_nat 0 + 1) by lia.
  - cbn [q_flog10_up]. destruct (q_leb_spec (q_pow10 (e + 1)) x) as [K|K].
    + apply IH; auto. now replace (e + 1 + Z.of_nat n + 1) with (e + Z.of_nat (S n) + 1) by lia.
    + exists e. split; auto. split; auto. now apply Qnot_le_lt.
Qed.
Lemma flog_spec x : ~ (x == 0)%Q -> exists e, q_flog10 x = Some e /\ (q_pow10 e <= Qabs x < q_pow10 (e + 1))%Q.
Proof.
  intros N. unfold q_flog10. destruct (q_eqb_spec (Qabs x) 0) as [E|E].
  { exfalso. apply N. revert E. clear. destruct x as [n d]. unfold Qabs, Qeq. cbn. intros. lia. }
  destruct (flog_up (Z.to_nat (Z.log2_up (Z.abs (Qnum (Qabs x))) - - (Z.log2_up (Z.pos (Qden (Qabs x))) + 1) + 2)) (Qabs x) (- (Z.log2_up (Z.pos (Qden (Qabs x))) + 1)))
    as (k & K & B); [| |exists k; split; [now rewrite K|exact B]].
  - destruct x as [n d]. cbn [Qabs Qden Qnum]. assert (Hn : 1 <= Z.abs n) by (unfold Qabs, Qeq in E; cbn in E; lia).
    set (m := Z.log2_up (Z.pos d)). assert (M0 : 0 <= m) by apply Z.log2_up_nonneg.
    assert (D : Z.pos d <= 10 ^ m).
    { destruct (Z.eq_dec (Z.pos d) 1) as [D1|D1]; [rewrite D1; apply Z.pow_pos_nonneg with (a := 10) in M0; lia|].
      transitivity (2 ^ m); [apply Z.log2_up_spec; lia|]. apply Z.pow_le_mono_l. lia. }
    apply (Qmult_le_l _ _ (q_pow10 (m + 1))); [apply p10_pos|]. rewrite p10_mul. replace (m + 1 + - (m + 1)) with 0 by lia.
    rewrite (p10_Z (m + 1)) by lia. unfold Qle, inject_Z, q_pow10. cbn [Qpower Qnum Qden Qmult]. rewrite Z.pow_add_r by lia. nia.
  - destruct x as [n d]. cbn [Qabs Qden Qnum]. set (m := Z.log2_up (Z.pos d)). assert (M0 : 0 <= m) by apply Z.log2_up_nonneg.
    rewrite Z.abs_involutive. set (b := Z.log2_up (Z.abs n)). assert (B0 : 0 <= b) by apply Z.log2_up_nonneg.
    rewrite Z2Nat.id by lia. replace (- (m + 1) + (b - - (m + 1) + 2) + 1) with (b + 3) by lia.
    assert (D : Z.abs n <= 10 ^ b).
    { destruct (Z_le_gt_dec (Z.abs n) 1) as [D1|D1]; [apply Z.pow_pos_nonneg with (a := 10) in B0; lia|].
      transitivity (2 ^ b); [apply Z.log2_up_spec; lia|]. apply Z.pow_le_mono_l. lia. }
    rewrite p10_Z by lia. unfold Qlt, inject_Z. cbn [Qnum Qden]. rewrite Z.pow_add_r by lia.
    assert (0 < 10 ^ b) by (apply Z.pow_pos_nonneg; lia). change (10 ^ 3) with 1000. nia.
Qed.

(** ** Ten decimals *)
Lemma Qfloor_bounds q : (inject_Z (Qfloor q) <= q < inject_Z (Qfloor q) + 1)%Q.
Proof. split; [apply Qfloor_le|]. rewrite <- (inject_Z_plus _ 1). apply Qlt_floor. Qed.

Definition half_ulp : Q := 1 # (2 * 10 ^ 10).
(** The rounded number is a whole number of 1e-10 nearest to the argument. *)
Lemma fixed10_spec a : exists z, (fixed10 a == inject_Z z / inject_Z e10)%Q /\
  (Qabs (inject_Z z - a * inject_Z e10) <= 1 # 2)%Q /\ ((0 <= a)%Q -> (a * inject_Z e10 < 1 # 2)%Q -> z = 0).
Proof.
  unfold fixed10. set (w := Qfloor a). set (tmp := ((a - inject_Z w) * inject_Z e10)%Q). set (f := Qfloor tmp).
  destruct (Qfloor_bounds a) as [A1 A2]. destruct (Qfloor_bounds tmp) as [T1 T2]. fold w in A1, A2. fold f in T1, T2.
  set (f' := if q_ltb (1 # 2) (tmp - inject_Z f) then f + 1 else if q_eqb (tmp - inject_Z f) (1 # 2) && ((f =? 0) || Z.odd f) then f + 1 else f).
  assert (F : (Qabs (inject_Z f' - tmp) <= 1 # 2)%Q /\ ((0 <= a)%Q -> (a * inject_Z e10 < 1 # 2)%Q -> f' = 0 /\ w = 0)).
  { assert (E : (0 < inject_Z e10)%Q) by reflexivity.
    assert (W0 : (0 <= a)%Q -> (a * inject_Z e10 < 1 # 2)%Q -> w = 0 /\ (tmp == a * inject_Z e10)%Q /\ f = 0).
    { intros P Q. assert (w = 0).
      { unfold w. assert (a < 1)%Q by (unfold e10 in Q; change (inject_Z (10 ^ 10)) with 10000000000%Q in Q; lra).
        assert (0 <= Qfloor a) by (apply (Qfloor_resp_le 0 a); exact P).
        destruct (Qfloor_bounds a) as [B1 _]. assert (B : (inject_Z (Qfloor a) < inject_Z 1)%Q) by (change (inject_Z 1) with 1%Q; lra).
        rewrite <- Zlt_Qlt in B. lia. }
      split; auto. assert (Et : (tmp == a * inject_Z e10)%Q) by (unfold tmp; rewrite H; change (inject_Z 0) with 0%Q; ring). split; auto.
      unfold f. rewrite Et. assert (0 <= Qfloor (a * inject_Z e10)).
      { apply (Qfloor_resp_le 0). apply Qmult_le_0_compat; auto. discriminate. }
      destruct (Qfloor_bounds (a * inject_Z e10)) as [B1 _]. assert (B : (inject_Z (Qfloor (a * inject_Z e10)) < inject_Z 1)%Q) by (change (inject_Z 1) with 1%Q; lra).
      rewrite <- Zlt_Qlt in B. lia. }
    unfold f'. destruct (q_ltb_spec (1 # 2) (tmp - inject_Z f)) as [L|L].
    - split; [rewrite inject_Z_plus; apply Qabs_Qle_condition; change (inject_Z 1) with 1%Q; lra|].
      intros P Q. destruct (W0 P Q) as (W & Et & Ef). rewrite Et, Ef in L. change (inject_Z 0) with 0%Q in L. lra.
    - destruct (q_eqb_spec (tmp - inject_Z f) (1 # 2)) as [Eq|Eq].
      + split.
        * destruct ((f =? 0) || Z.odd f); cbn [andb]; [rewrite inject_Z_plus; change (inject_Z 1) with 1%Q|]; apply Qabs_Qle_condition; lra.
        * intros P Q. destruct (W0 P Q) as (W & Et & Ef). rewrite Et, Ef in Eq. change (inject_Z 0) with 0%Q in Eq. lra.
      + cbn [andb]. split; [apply Qabs_Qle_condition; lra|]. intros P Q. destruct (W0 P Q) as (W & Et & Ef). auto. }
  destruct F as [F F0].
  assert (Ta : (tmp == a * inject_Z e10 - inject_Z (w * e10))%Q) by (unfold tmp; rewrite inject_Z_mult; ring).
  destruct (Z.leb_spec e10 f') as [Q|Q].
  - exists ((w + 1) * e10). split; [|split].
    + rewrite inject_Z_mult. field. discriminate.
    + assert (f' <= e10).
      { unfold f'. assert (f < e10).
        { assert (B : (inject_Z f < inject_Z e10)%Q) by (unfold tmp in T1; unfold e10 in *; change (inject_Z (10 ^ 10)) with 10000000000%Q in *; lra).
          now rewrite <- Zlt_Qlt in B. }
        destruct (q_ltb _ _); [lia|]. destruct (_ && _); lia. }
      assert (f' = e10) by lia. rewrite H0 in F.
      replace ((w + 1) * e10) with (w * e10 + e10) by lia. rewrite inject_Z_plus. apply Qabs_Qle_condition. apply Qabs_Qle_condition in F. lra.
    + intros P1 P2. destruct (F0 P1 P2) as [E1 E2]. rewrite E1 in Q. unfold e10 in Q. lia.
  - exists (w * e10 + f'). split; [|split].
    + rewrite inject_Z_plus, inject_Z_mult. field. discriminate.
    + rewrite inject_Z_plus. apply Qabs_Qle_condition. apply Qabs_Qle_condition in F. lra.
    + intros P1 P2. destruct (F0 P1 P2) as [E1 E2]. rewrite E1, E2. reflexivity.
Qed.

(** ** Numbers *)
Definition extreme (x : Q) : bool := q_ltb thres_max (Qabs x) || (negb (q_eqb (Qabs x) 0) && q_ltb (Qabs x) thres_min).
Lemma Qabs_zero x : (Qabs x == 0)%Q <-> (x == 0)%Q.
Proof. destruct x as [n d]. unfold Qabs, Qeq. cbn. lia. Qed.
Lemma extreme_spec x : extreme x = false <-> ordinary x.
Proof.
  unfold extreme, ordinary. rewrite orb_false_iff, andb_false_iff, negb_false_iff, q_eqb_iff, Qabs_zero.
  assert (L1 : q_ltb thres_max (Qabs x) = false <-> (Qabs x <= inject_Z (10 ^ 16 - 1))%Q).
  { destruct (q_ltb_spec thres_max (Qabs x)) as [L|L]; split; try congruence; unfold thres_max in *.
    - intros L'. exfalso. lra.
    - intros _. now apply Qnot_lt_le. }
  assert (L2 : q_ltb (Qabs x) thres_min = false <-> (1 # (10 ^ 15) <= Qabs x)%Q).
  { destruct (q_ltb_spec (Qabs x) thres_min) as [L|L]; split; try congruence; unfold thres_min in *.
    - intros L'. exfalso. lra.
    - intros _. now apply Qnot_lt_le. }
  rewrite L1, L2. tauto.
Qed.
Lemma ordinary_dec x : ordinary x \/ ~ ordinary x.
Proof. rewrite <- extreme_spec. destruct (extreme x); [right; discriminate|auto]. Qed.

(** In the ordinary range: a whole number of 1e-10, the nearest one. *)
Lemma json_ordinary x : ordinary x -> exists z, (json_num x == inject_Z z / inject_Z e10)%Q /\
  (Qabs (inject_Z z - x * inject_Z e10) <= 1 # 2)%Q /\ ((Qabs x * inject_Z e10 < 1 # 2)%Q -> z = 0).
Proof.
  intros Hx. apply extreme_spec in Hx. unfold json_num. fold (extreme x). rewrite Hx.
  destruct (fixed10_spec (Qabs x)) as (z & E & B & Z0). specialize (Z0 (Qabs_nonneg x)).
  destruct (q_ltb_spec x 0) as [L|L].
  - exists (- z). rewrite Qred_correct, E, inject_Z_opp. split; [field; discriminate|]. split.
    + assert (A : (Qabs x == - x)%Q) by (apply Qabs_neg; lra). rewrite A in B. apply Qabs_Qle_condition. apply Qabs_Qle_condition in B. lra.
    + intros Q. rewrite Z0; auto.
  - exists z. rewrite Qred_correct. split; [exact E|]. split; [|exact Z0].
    assert (A : (Qabs x == x)%Q) by (apply Qabs_pos; lra). rewrite A in B. exact B.
Qed.
Lemma json_ordinary_err x : ordinary x -> (Qabs (json_num x - x) <= half_ulp)%Q.
Proof.
  intros Hx. destruct (json_ordinary x Hx) as (z & E & B & _). rewrite E. apply Qabs_Qle_condition. apply Qabs_Qle_condition in B.
  unfold half_ulp. change e10 with 10000000000 in *. change (inject_Z 10000000000) with 10000000000%Q in *. change (2 * 10 ^ 10)%positive with 20000000000%positive.
  assert (D : (inject_Z z / 10000000000 == inject_Z z * (1 # 10000000000))%Q) by (field).
  rewrite D. lra.
Qed.
Lemma json_extreme_err x : ~ ordinary x -> (Qabs (json_num x - x) <= Qabs x * (1 # (2 * 10 ^ 9)))%Q.
Proof.
  intros Hx. assert (E : extreme x = true) by (rewrite <- extreme_spec in Hx; now destruct (extreme x)).
  assert (N : ~ (x == 0)%Q).
  { intros Z0. apply Hx. split; [now left|]. rewrite Z0. cbn. discriminate. }
  unfold json_num. fold (extreme x). rewrite E. unfold sig10. destruct (flog_spec x N) as (e & -> & L & _).
  set (y := (x * q_pow10 (9 - e))%Q).
  assert (Hy : (x == y * q_pow10 (e - 9))%Q).
  { unfold y. rewrite <- Qmult_assoc, p10_mul. replace (9 - e + (e - 9)) with 0 by lia. change (q_pow10 0) with 1%Q. ring. }
  destruct (round_half_even_spec y) as (R1 & R2 & _).
  assert (P : (0 < q_pow10 (e - 9))%Q) by apply p10_pos.
  assert (Ay : (1000000000 <= Qabs y)%Q).
  { unfold y. rewrite Qabs_Qmult, (Qabs_pos (q_pow10 (9 - e))) by (apply Qlt_le_weak, p10_pos).
    assert (K : (q_pow10 e * q_pow10 (9 - e) == 1000000000)%Q) by (rewrite p10_mul; replace (e + (9 - e)) with 9 by lia; reflexivity).
    rewrite <- K. apply Qmult_le_compat_r; auto. apply Qlt_le_weak, p10_pos. }
  rewrite Qred_correct. clearbody y.
  assert (D : (inject_Z (round_half_even y) * q_pow10 (e - 9) - x == (inject_Z (round_half_even y) - y) * q_pow10 (e - 9))%Q) by (rewrite Hy; ring).
  rewrite D. rewrite Hy. rewrite !Qabs_Qmult, (Qabs_pos (q_pow10 (e - 9))) by lra.
  assert (B : (Qabs (inject_Z (round_half_even y) - y) <= 1 # 2)%Q) by (apply Qabs_Qle_condition; lra).
  change (2 * 10 ^ 9)%positive with 2000000000%positive. nra.
Qed.
Lemma json_read_back x : read_back x (json_num x).
Proof. split; [apply json_ordinary_err|apply json_extreme_err]. Qed.

Lemma int_close a b : (Qabs (inject_Z a - inject_Z b) < 1)%Q -> a = b.
Proof.
  intros K. apply Qabs_Qlt_condition in K as [K1 K2].
  assert (A : (inject_Z b < inject_Z (a + 1))%Q) by (rewrite inject_Z_plus; change (inject_Z 1) with 1%Q; lra).
  assert (B : (inject_Z a < inject_Z (b + 1))%Q) by (rewrite inject_Z_plus; change (inject_Z 1) with 1%Q; lra).
  rewrite <- Zlt_Qlt in A, B. lia.
Qed.
(** Multiples of 1e-10 are exact, tiny numbers become 0. *)
Lemma json_multiple x n : ordinary x -> (x == inject_Z n * (1 # 10 ^ 10))%Q -> (json_num x == x)%Q.
Proof.
  intros Hx E. destruct (json_ordinary x Hx) as (z & -> & B & _). change e10 with 10000000000 in *. change (inject_Z 10000000000) with 10000000000%Q in *.
  assert (z = n).
  { apply int_close. apply (Qle_lt_trans _ (1 # 2)); [|reflexivity].
    apply Qabs_Qle_condition. apply Qabs_Qle_condition in B. rewrite E in B. change (1 # 10 ^ 10)%Q with (1 # 10000000000)%Q in B.
    assert (M : (inject_Z n * (1 # 10000000000) * 10000000000 == inject_Z n)%Q) by field. rewrite M in B. lra. }
  subst z. rewrite E. change (1 # 10 ^ 10)%Q with (1 # 10000000000)%Q. field.
Qed.
Lemma json_tiny x : ordinary x -> (Qabs x < 1 # (2 * 10 ^ 10))%Q -> (json_num x == 0)%Q.
Proof.
  intros Hx E. destruct (json_ordinary x Hx) as (z & -> & _ & B). rewrite B; [reflexivity|]. change e10 with 10000000000 in *. change (inject_Z 10000000000) with 10000000000%Q in *.
  change (2 * 10 ^ 10)%positive with 20000000000%positive in E. lra.
Qed.

(** ** Times *)
Lemma round_close q us : (Qabs (q - inject_Z us) < 1 # 2)%Q -> round_half_even q = us.
Proof.
  intros B. apply Qabs_Qlt_condition in B. apply (nearest_even_unique q); [apply round_half_even_spec|].
  split; [lra|]. split; [lra|]. intros [E|E]; lra.
Qed.
Lemma td_ordinary u us : Z.abs us < 10 ^ 16 -> ordinary (td_to_num u us).
Proof.
  intros B. pose proof (td_to_num_us u us) as E. set (q := td_to_num u us) in *.
  assert (K : (1 <= inject_Z (us_per u) <= 86400000000)%Q) by (destruct u; cbn; split; discriminate).
  assert (Q : (Qabs q * inject_Z (us_per u) == inject_Z (Z.abs us))%Q).
  { rewrite <- (Qabs_pos (inject_Z (us_per u))) by lra. rewrite <- Qabs_Qmult, E. reflexivity. }
  split.
  - destruct (Z.eq_dec us 0) as [->|N].
    + left. apply Qabs_zero. change (inject_Z (Z.abs 0)) with 0%Q in Q. apply Qmult_integral in Q as [Q|Q]; [exact Q|lra].
    + right. assert (1 <= inject_Z (Z.abs us))%Q by (change 1%Q with (inject_Z 1); rewrite <- Zle_Qle; lia).
      apply Qnot_lt_le. intros L. change (1 # 10 ^ 15)%Q with (1 # 1000000000000000)%Q in L. pose proof (Qabs_nonneg q). nra.
  - assert (inject_Z (Z.abs us) <= inject_Z (10 ^ 16 - 1))%Q by (rewrite <- Zle_Qle; lia). pose proof (Qabs_nonneg q). nra.
Qed.

(** A time after export and reload. *)
Definition back (u : tunit) (us : Z) : Z := num_to_td u (json_num (td_to_num u us)).
Lemma back_err u us : Z.abs us < 10 ^ 16 ->
  (Qabs (json_num (td_to_num u us) * inject_Z (us_per u) - inject_Z us) <= half_ulp * inject_Z (us_per u))%Q.
Proof.
  intros B. rewrite <- (td_to_num_us u us). pose proof (json_ordinary_err _ (td_ordinary u us B)) as E. set (q := td_to_num u us) in *.
  assert (K : (0 <= inject_Z (us_per u))%Q) by (destruct u; cbn; discriminate).
  assert (D : (json_num q * inject_Z (us_per u) - q * inject_Z (us_per u) == (json_num q - q) * inject_Z (us_per u))%Q) by ring.
  rewrite D, Qabs_Qmult, (Qabs_pos (inject_Z (us_per u))) by auto. now apply Qmult_le_compat_r.
Qed.
Lemma back_exact u us : Z.abs us < 10 ^ 16 -> u <> UDays -> back u us = us.
Proof.
  intros B N. unfold back, num_to_td. apply round_close. eapply Qle_lt_trans; [now apply back_err|]. destruct u; [congruence|reflexivity..].
Qed.
Lemma back_days us : Z.abs us < 10 ^ 16 -> Z.abs (back UDays us - us) <= 4.
Proof.
  intros B. unfold back, num_to_td. pose proof (back_err UDays us B) as E. set (y := (json_num _ * _)%Q) in *.
  destruct (round_half_even_spec y) as (R1 & R2 & _). set (r := round_half_even y) in *.
  apply Qabs_Qle_condition in E. change (half_ulp * inject_Z (us_per UDays))%Q with (86400000000 # 20000000000)%Q in E.
  assert (K1 : (inject_Z r < inject_Z (us + 5))%Q) by (rewrite inject_Z_plus; change (inject_Z 5) with 5%Q; lra).
  assert (K2 : (inject_Z us < inject_Z (r + 5))%Q) by (rewrite inject_Z_plus; change (inject_Z 5) with 5%Q; lra).
  rewrite <- Zlt_Qlt in K1, K2. lia.
Qed.

(** ** Tables *)
Lemma map_resM_ok {A B} (f : A -> res B) g l : (forall x, In x l -> f x = Ok (g x)) -> map_resM f l = Ok (map g l).
Proof.
  induction l as [|x l IH]; intros F; [reflexivity|]. cbn [map_resM map]. rewrite F by (now left). cbn [rbind].
  rewrite IH by (intros; apply F; now right). reflexivity.
Qed.
Lemma map_resM_err {A B} (f : A -> res B) e l : l <> [] -> (forall x, In x l -> f x = Err e) -> map_resM f l = Err e.
Proof. intros N F. destruct l as [|x l]; [congruence|]. cbn [map_resM]. rewrite F by (now left). reflexivity. Qed.

Lemma unit_map_lower s u : unit_map (Some s) = Some u -> lower s = s.
Proof.
  unfold unit_map. repeat match goal with |- context [String.eqb s ?k] => destruct (String.eqb_spec s k) as [->|_]; [reflexivity|] end. discriminate.
Qed.
Lemma export_units_ok x tu u : unit_map (chosen x tu) = Some u ->
  exists s, export_units x tu = Ok s /\ unit_map (Some s) = Some u /\ lower s = s.
Proof.
  intros E. unfold export_units, chosen in *. destruct tu as [s|].
  - rewrite E. exists (unit_name u). split; auto. split; [apply unit_map_name|]. eapply unit_map_lower, unit_map_name.
  - destruct (x_unit x) as [s|]; [exists s; split; auto; split; auto; now apply unit_map_lower in E|].
    injection E as <-. exists "hours"%string. repeat split.
Qed.
Lemma export_units_bad x tu : unit_map (chosen x tu) = None ->
  export_units x tu = Err UserConfigError \/ exists s, export_units x tu = Ok s /\ unit_map (Some s) = None.
Proof.
  intros E. unfold export_units, chosen in *. destruct tu as [s|]; [rewrite E; auto|]. destruct (x_unit x) as [s|]; [right; eauto|discriminate].
Qed.

Section Tables.
Variables (s : string) (u : tunit).
Hypothesis Hs : unit_map (Some s) = Some u.

Definition with_time (r : row Q) (t : tval) : row Q := Row (r_param r) (r_step r) (r_dev r) (r_chp r) (r_lot r) t (r_val r).
Definition flip (t : tval) : tval := match t with TD us => TN (td_to_num u us) | TN q => TD (num_to_td u q) end.
Lemma conv_flip t : convert_time t (Some s) = Ok (flip t).
Proof. unfold convert_time. rewrite Hs. destruct t; reflexivity. Qed.
Lemma conv_row_ok r : conv_row s r = Ok (with_time r (flip (r_time r))).
Proof. unfold conv_row. rewrite conv_flip. reflexivity. Qed.

Definition flip_col (k : string) (d : dict (cell Q)) : dict (cell Q) :=
  match dget d k with
  | Some (CTime t) => dset d k (CTime (flip t))
  | Some (CNum q) => dset d k (CTime (flip (TN q)))
  | _ => d
  end.
Definition timish (k : string) (d : dict (cell Q)) : Prop :=
  match dget d k with Some (CTime _) | Some (CNum _) => True | _ => False end.
Lemma conv_col_ok k d : timish k d -> conv_col s k d = Ok (flip_col k d).
Proof.
  unfold timish, conv_col, flip_col. destruct (dget d k) as [[]|]; try contradiction; intros _; cbn [conv_cell];
    rewrite conv_flip; reflexivity.
Qed.
Lemma flip_col_get k k' d : dget (flip_col k d) k' =
  if String.eqb k k' then match dget d k with
                          | Some (CTime t) => Some (CTime (flip t)) | Some (CNum q) => Some (CTime (flip (TN q))) | c => c end
  else dget d k'.
Proof.
  unfold flip_col. destruct (dget d k) as [c|] eqn:E.
  - destruct c; rewrite ?dget_dset; destruct (String.eqb_spec k k') as [<-|]; auto.
  - destruct (String.eqb_spec k k') as [<-|]; auto.
Qed.
Lemma flip_col_keys k d : dkeys (flip_col k d) = dkeys d.
Proof.
  unfold flip_col. destruct (dget d k) as [c|] eqn:E; [|reflexivity]. assert (M : dmem d k = true) by (unfold dmem; now rewrite E).
  destruct c; rewrite ?dkeys_dset, ?M; reflexivity.
Qed.

(** Everything that happens to a summary line on export and on loading. *)
Definition out_sum (d : dict (cell Q)) := json_sum (flip_col "end time" (flip_col "start time" (flip_col "duration" d))).
Definition in_sum (d : dict (cell Q)) := flip_col "duration" (flip_col "end time" (flip_col "start time" d)).
Definition out_row (r : row Q) := json_row (with_time r (flip (r_time r))).
Definition in_row (r : row Q) := with_time r (flip (r_time r)).

Lemma timish_flip k k' d : timish k d -> timish k (flip_col k' d).
Proof.
  unfold timish. rewrite flip_col_get. destruct (String.eqb_spec k' k) as [->|]; auto. destruct (dget d k) as [[]|]; auto.
Qed.
Lemma timish_json k d : timish k d -> timish k (json_sum d).
Proof. unfold timish, json_sum. rewrite dget_map. destruct (dget d k) as [[]|]; cbn; auto. Qed.

Lemma map_conv_col k l : (forall d, In d l -> timish k d) -> map_resM (conv_col s k) l = Ok (map (flip_col k) l).
Proof. intros T. apply map_resM_ok. intros d I. now apply conv_col_ok, T. Qed.
Lemma In_map_timish k f l : (forall d, timish k d -> timish k (f d)) -> (forall d, In d l -> timish k d) -> forall d, In d (map f l) -> timish k d.
Proof. intros F T d I. apply in_map_iff in I as (x & <- & I). auto. Qed.

Lemma export_ok x tu rows sums : export_units x tu = Ok s -> x_meas x = Some rows -> x_sum x = Some sums ->
  (forall d k, In d sums -> In k time_cols -> timish k d) ->
  export_to_json x tu = Ok (XJson (x_name x) (x_desc x) s (map out_row rows) (map out_sum sums)).
Proof.
  intros E M U T. unfold export_to_json. rewrite E, M, U. cbn [rbind].
  rewrite (map_resM_ok _ in_row) by (intros; apply conv_row_ok). cbn [rbind].
  rewrite map_conv_col by (intros; apply T; cbn; auto). cbn [rbind].
  rewrite map_conv_col by (apply In_map_timish; [intros; now apply timish_flip|]; intros; apply T; cbn; auto). cbn [rbind].
  rewrite map_conv_col by (apply In_map_timish; [intros; now apply timish_flip|]; apply In_map_timish; [intros; now apply timish_flip|]; intros; apply T; cbn; auto).
  cbn [rbind]. rewrite !map_map. reflexivity.
Qed.
Lemma load_ok name desc rows sums : lower s = s -> (forall d k, In d sums -> In k time_cols -> timish k d) ->
  load (XJson name desc s rows sums) = Ok (XReport name desc (Some s) (Some (map in_row rows)) (Some (map in_sum sums))).
Proof.
  intros L T. unfold load. cbn [j_units j_meas j_sum j_name j_desc]. rewrite L.
  rewrite (map_resM_ok _ in_row) by (intros; apply conv_row_ok). cbn [rbind].
  rewrite map_conv_col by (intros; apply T; cbn; auto). cbn [rbind].
  rewrite map_conv_col by (apply In_map_timish; [intros; now apply timish_flip|]; intros; apply T; cbn; auto). cbn [rbind].
  rewrite map_conv_col by (apply In_map_timish; [intros; now apply timish_flip|]; apply In_map_timish; [intros; now apply timish_flip|]; intros; apply T; cbn; auto).
  cbn [rbind]. rewrite !map_map. reflexivity.
Qed.
Lemma out_timish d : (forall k, In k time_cols -> timish k d) -> forall k, In k time_cols -> timish k (out_sum d).
Proof. intros T k I. apply timish_json. repeat apply timish_flip. auto. Qed.

Lemma reload_ok x tu rows sums : export_units x tu = Ok s -> lower s = s -> x_meas x = Some rows -> x_sum x = Some sums ->
  (forall d k, In d sums -> In k time_cols -> timish k d) ->
  exists j, export_to_json x tu = Ok j /\ j_units j = s /\
    load j = Ok (XReport (x_name x) (x_desc x) (Some s) (Some (map (fun r => in_row (out_row r)) rows)) (Some (map (fun d => in_sum (out_sum d)) sums))).
Proof.
  intros E L M U T. eexists. split; [exact (export_ok x tu rows sums E M U T)|]. split; [reflexivity|]. rewrite load_ok; auto.
  - now rewrite !map_map.
  - intros d k I J. apply in_map_iff in I as (d0 & <- & I). apply out_timish; auto.
Qed.

(** the cells *)
Lemma out_in_get d k : dget (in_sum (out_sum d)) k =
  match dget d k with
  | None => None
  | Some c => if smem k time_cols
              then match c with
                   | CTime t => Some (CTime (flip (TN (json_time (flip t)))))
                   | CNum q => Some (CTime (flip (TN (json_time (flip (TN q))))))
                   | _ => Some (json_cell c)
                   end
              else Some (json_cell c)
  end.
Proof.
  unfold in_sum, out_sum. rewrite !flip_col_get. unfold json_sum. rewrite !dget_map, !flip_col_get.
  destruct (String.eqb_spec "duration" k) as [<-|N1].
  { cbn [String.eqb Ascii.eqb Bool.eqb]. cbn. destruct (dget d "duration") as [[]|]; reflexivity. }
  destruct (String.eqb_spec "end time" k) as [<-|N2].
  { cbn. destruct (dget d "end time") as [[]|]; reflexivity. }
  destruct (String.eqb_spec "start time" k) as [<-|N3].
  { cbn. destruct (dget d "start time") as [[]|]; reflexivity. }
  destruct (dget d k) as [c|]; cbn [option_map]; [|reflexivity].
  replace (smem k time_cols) with false; [reflexivity|]. symmetry. apply smem_false. cbn [time_cols In]. intuition congruence.
Qed.
Lemma out_in_keys d : dkeys (in_sum (out_sum d)) = dkeys d.
Proof.
  unfold in_sum, out_sum. rewrite !flip_col_keys. unfold json_sum, dkeys. rewrite map_map. cbn [fst].
  change (map (fun x : string * cell Q => fst x) ?l) with (dkeys l). now rewrite !flip_col_keys.
Qed.
End Tables.

(** ** The round trip *)
Lemma usual_timish x rows sums : timed x rows sums -> forall d k, In d sums -> In k time_cols -> timish k d.
Proof. intros (_ & _ & _ & S & _) d k I J. destruct (S d I) as [_ W]. destruct (W k J) as (t & E & _). unfold timish. now rewrite E. Qed.

Lemma reload_genN (N : Q -> Q -> Prop) (HN : forall v, N v (json_num v)) (T1 T2 : tval -> tval -> Prop) x tu rows sums u :
  x_meas x = Some rows -> x_sum x = Some sums ->
  (forall d, In d sums -> dwf d /\ forall k, In k time_cols -> exists t, dget d k = Some (CTime t) /\ usual_time t) ->
  (forall d k t, In d sums -> dget d k = Some (CTime t) -> In k time_cols) ->
  unit_map (chosen x tu) = Some u ->
  (forall r, In r rows -> T1 (r_time r) (flip u (TN (json_time (flip u (r_time r)))))) ->
  (forall us, Z.abs us < 10 ^ 16 -> T2 (TD us) (TD (back u us))) ->
  exists j x' rows' sums', export_to_json x tu = Ok j /\ load j = Ok x' /\ x_name x' = x_name x /\ x_desc x' = x_desc x /\
    x_meas x' = Some rows' /\ x_sum x' = Some sums' /\
    Forall2 (row_rel T1 N) rows rows' /\ Forall2 (sum_rel T2 N) sums sums'.
Proof.
  intros M U S O Eu R HT. destruct (export_units_ok _ _ _ Eu) as (s & E & Hs & L).
  assert (W : forall d k, In d sums -> In k time_cols -> timish k d).
  { intros d k I J. destruct (S d I) as [_ W]. destruct (W k J) as (t & Et & _). unfold timish. now rewrite Et. }
  destruct (reload_ok s u Hs x tu rows sums E L M U W) as (j & Ej & _ & Lj).
  do 4 eexists. split; [exact Ej|]. split; [exact Lj|]. do 4 (split; [reflexivity|]). split.
  - clear - HN R HT. induction rows as [|r rows IH]; [constructor|]. cbn [map]. constructor; [|apply IH; intros; apply R; now right].
    unfold in_row, out_row, with_time, json_row, row_rel.
    cbn [r_param r_step r_dev r_chp r_lot r_time r_val]. repeat split; try apply HN.
    apply R. now left.
  - assert (S' : forall d, In d sums -> sum_rel T2 N d (in_sum u (out_sum u d))).
    2:{ clear - S'. induction sums as [|d sums IH]; [constructor|]. cbn [map]. constructor; [apply S'; now left|apply IH; intros; apply S'; now right]. }
    intros d I. split; [apply out_in_keys|]. intros k c Ec. rewrite out_in_get, Ec. destruct (smem k time_cols) eqn:K.
    + apply smem_In in K. destruct (S d I) as [_ Sd]. destruct (Sd k K) as (t & Et & us & -> & B). rewrite Ec in Et. injection Et as ->.
      eexists. split; [reflexivity|]. cbn [cell_rel flip json_time]. apply HT. exact B.
    + eexists. split; [reflexivity|]. destruct c; cbn [json_cell cell_rel]; try reflexivity; try apply HN.
      exfalso. apply smem_false in K. apply K. eapply O; eauto.
Qed.
Lemma reload_gen (T1 T2 : tval -> tval -> Prop) x tu rows sums u :
  x_meas x = Some rows -> x_sum x = Some sums ->
  (forall d, In d sums -> dwf d /\ forall k, In k time_cols -> exists t, dget d k = Some (CTime t) /\ usual_time t) ->
  (forall d k t, In d sums -> dget d k = Some (CTime t) -> In k time_cols) ->
  unit_map (chosen x tu) = Some u ->
  (forall r, In r rows -> T1 (r_time r) (flip u (TN (json_time (flip u (r_time r)))))) ->
  (forall us, Z.abs us < 10 ^ 16 -> T2 (TD us) (TD (back u us))) ->
  exists j x' rows' sums', export_to_json x tu = Ok j /\ load j = Ok x' /\ x_name x' = x_name x /\ x_desc x' = x_desc x /\
    x_meas x' = Some rows' /\ x_sum x' = Some sums' /\
    Forall2 (row_rel T1 read_back) rows rows' /\ Forall2 (sum_rel T2 read_back) sums sums'.
Proof. exact (reload_genN read_back json_read_back T1 T2 x tu rows sums u). Qed.
Lemma reload_main (T : tval -> tval -> Prop) x tu rows sums u :
  timed x rows sums -> unit_map (chosen x tu) = Some u ->
  (forall us, Z.abs us < 10 ^ 16 -> T (TD us) (TD (back u us))) ->
  exists j x' rows' sums', export_to_json x tu = Ok j /\ load j = Ok x' /\ x_name x' = x_name x /\ x_desc x' = x_desc x /\
    x_meas x' = Some rows' /\ x_sum x' = Some sums' /\
    Forall2 (row_rel T read_back) rows rows' /\ Forall2 (sum_rel T read_back) sums sums'.
Proof.
  intros (M & U & R & S & O) Eu HT. eapply reload_gen; eauto.
  intros r I. destruct (R r I) as (us & Et & B). rewrite Et. apply HT. exact B.
Qed.

(** ** Writing numbers again *)
Lemma json_num_red x : Qred (json_num x) = json_num x.
Proof. unfold json_num. destruct (_ || _); [|destruct (q_ltb x 0)]; now rewrite (Qred_complete _ _ (Qred_correct _)). Qed.
Lemma json_eq x y : (json_num x == json_num y)%Q -> json_num x = json_num y.
Proof. intros E. rewrite <- (json_num_red x), <- (json_num_red y). now apply Qred_complete. Qed.
Lemma json_stable x : ordinary x -> ordinary (json_num x) /\ json_num (json_num x) = json_num x.
Proof.
  intros Hx. destruct (json_ordinary x Hx) as (z & E & B & _).
  assert (E' : (json_num x == inject_Z z * (1 # 10 ^ 10))%Q) by (rewrite E; change e10 with 10000000000; change (1 # 10 ^ 10)%Q with (1 # 10000000000)%Q; change (inject_Z 10000000000) with 10000000000%Q; field).
  assert (A : (Qabs (json_num x) == inject_Z (Z.abs z) * (1 # 10000000000))%Q).
  { rewrite E', Qabs_Qmult. change (Qabs (1 # 10 ^ 10)) with (1 # 10000000000)%Q. reflexivity. }
  assert (O : ordinary (json_num x)).
  { destruct Hx as [_ Hx]. split.
    - destruct (Z.eq_dec z 0) as [->|N]; [left; rewrite E'; reflexivity|]. right. rewrite A.
      assert (1 <= inject_Z (Z.abs z))%Q by (change 1%Q with (inject_Z 1); rewrite <- Zle_Qle; lia).
      change (1 # 10 ^ 15)%Q with (1 # 1000000000000000)%Q. lra.
    - rewrite A. assert (Z.abs z <= (10 ^ 16 - 1) * 10 ^ 10).
      { apply Qabs_Qle_condition in B. apply Qabs_Qle_condition in Hx. change e10 with 10000000000 in B. change (inject_Z 10000000000) with 10000000000%Q in B.
        change (inject_Z (10 ^ 16 - 1)) with 9999999999999999%Q in Hx.
        assert (K1 : (inject_Z z < inject_Z ((10 ^ 16 - 1) * 10 ^ 10 + 1))%Q) by (change (inject_Z ((10 ^ 16 - 1) * 10 ^ 10 + 1)) with 99999999999999990000000001%Q; lra).
        assert (K2 : (inject_Z (- ((10 ^ 16 - 1) * 10 ^ 10 + 1)) < inject_Z z)%Q) by (change (inject_Z (- ((10 ^ 16 - 1) * 10 ^ 10 + 1))) with (- 99999999999999990000000001)%Q; lra).
        rewrite <- Zlt_Qlt in K1, K2. lia. }
      assert (inject_Z (Z.abs z) <= inject_Z ((10 ^ 16 - 1) * 10 ^ 10))%Q by (rewrite <- Zle_Qle; lia).
      change (inject_Z ((10 ^ 16 - 1) * 10 ^ 10)) with 99999999999999990000000000%Q in *. change (inject_Z (10 ^ 16 - 1)) with 9999999999999999%Q. lra. }
  split; auto. rewrite <- (json_num_red x) at 2. rewrite <- (json_num_red (json_num x)). apply Qred_complete. eapply json_multiple; eauto.
Qed.
Lemma back_stable u us : Z.abs us < 10 ^ 16 -> json_num (td_to_num u (back u us)) = json_num (td_to_num u us).
Proof.
  intros B. destruct u; try (rewrite back_exact; [reflexivity|auto|discriminate]).
  pose proof (back_days us B) as D. destruct (Z.eq_dec us 0) as [->|N]; [reflexivity|].
  destruct (json_ordinary _ (td_ordinary UDays us B)) as (z & E & Bz & _).
  set (q := json_num (td_to_num UDays us)) in *.
  assert (O : ordinary (td_to_num UDays (back UDays us))).
  { pose proof (td_to_num_us UDays (back UDays us)) as K. destruct (Z_lt_le_dec (Z.abs (back UDays us)) (10 ^ 16)); [now apply td_ordinary|].
    set (p := td_to_num UDays (back UDays us)) in *.
    assert (A : (Qabs p * 86400000000 == inject_Z (Z.abs (back UDays us)))%Q).
    { rewrite <- (Qabs_pos 86400000000) by discriminate. rewrite <- Qabs_Qmult. change 86400000000%Q with (inject_Z (us_per UDays)). rewrite K. reflexivity. }
    assert (L1 : (inject_Z (10 ^ 16) <= inject_Z (Z.abs (back UDays us)))%Q) by (rewrite <- Zle_Qle; lia).
    assert (L2 : (inject_Z (Z.abs (back UDays us)) <= inject_Z (10 ^ 16 + 4))%Q) by (rewrite <- Zle_Qle; lia).
    change (inject_Z (10 ^ 16)) with 10000000000000000%Q in L1. change (inject_Z (10 ^ 16 + 4)) with 10000000000000004%Q in L2.
    split; [right; change (1 # 10 ^ 15)%Q with (1 # 1000000000000000)%Q|change (inject_Z (10 ^ 16 - 1)) with 9999999999999999%Q]; lra. }
  destruct (json_ordinary _ O) as (z2 & E2 & B2 & _).
  assert (z2 = z).
  { apply int_close. pose proof (td_to_num_us UDays (back UDays us)) as K. set (p := td_to_num UDays (back UDays us)) in *.
    destruct (round_half_even_spec (q * inject_Z (us_per UDays))) as (R1 & R2 & _).
    change (round_half_even (q * inject_Z (us_per UDays))) with (back UDays us) in R1, R2. rewrite <- K in R1, R2.
    rewrite E in R1, R2. change e10 with 10000000000 in *. change (inject_Z 10000000000) with 10000000000%Q in *. change (inject_Z (us_per UDays)) with 86400000000%Q in *.
    assert (X : (inject_Z z / 10000000000 == inject_Z z * (1 # 10000000000))%Q) by field. rewrite X in R1, R2.
    apply Qabs_Qle_condition in B2. apply Qabs_Qlt_condition. lra. }
  subst z2. unfold q in *. apply json_eq. rewrite E, E2. reflexivity.
Qed.

(** ** Conversion *)
Lemma convert_ok x tu u rows : unit_map (match tu with None => Some "hours"%string | t => t end) = Some u -> x_meas x = Some rows ->
  exists s, unit_map (Some s) = Some u /\ lower s = s /\
  convert_report_time x tu = (Ok tt, XReport (x_name x) (x_desc x) (Some s) (Some (map (in_row u) rows)) (x_sum x)).
Proof.
  intros E M. set (s := match tu with None => "hours"%string | Some u => u end).
  assert (Hs : unit_map (Some s) = Some u) by (unfold s; destruct tu; exact E).
  exists s. split; [exact Hs|]. split; [eapply unit_map_lower; eauto|]. unfold convert_report_time. fold s. rewrite M.
  rewrite (map_resM_ok _ (in_row u)) by (intros; now apply conv_row_ok). reflexivity.
Qed.
Lemma flip_flip u us : flip u (flip u (TD us)) = TD us.
Proof. cbn [flip]. now rewrite convert_round_trip. Qed.
Lemma quot_exact us : (Z.quot us 1000 * 1000 = us) <-> (1000 | us).
Proof.
  split; [intros E; exists (Z.quot us 1000); lia|]. intros [q ->]. now rewrite Z.quot_mul by lia.
Qed.
Lemma quot_iff us u : Z.quot us 1000 * us_per u = us <-> us = 0 \/ (u = UMs /\ (1000 | us)).
Proof.
  pose proof (Z.quot_rem' us 1000) as R. pose proof (Z.rem_bound_abs us 1000 ltac:(lia)) as B.
  assert (Sg : (0 <= us -> 0 <= Z.rem us 1000) /\ (us <= 0 -> Z.rem us 1000 <= 0)).
  { split; intros; [apply Z.rem_nonneg|apply Z.rem_nonpos]; lia. }
  rewrite <- quot_exact. split.
  - intros E. destruct u; cbn [us_per] in *; try (left; lia). right. split; [reflexivity|lia].
  - intros [->|[-> E]]; [reflexivity|exact E].
Qed.
Lemma ms_back u us : flip u (TN (json_time (TD us))) = TD (Z.quot us 1000 * us_per u).
Proof. cbn [flip json_time]. f_equal. unfold num_to_td. apply round_half_even_int. now rewrite inject_Z_mult. Qed.

(** ** Exporting after a conversion *)
Lemma convert_reload x tu u x1 tu2 u2 rows sums : timed x rows sums ->
  unit_map (match tu with None => Some "hours"%string | t => t end) = Some u ->
  convert_report_time x tu = (Ok tt, x1) -> unit_map (chosen x1 tu2) = Some u2 ->
  exists j x' rows' sums', export_to_json x1 tu2 = Ok j /\ load j = Ok x' /\ x_meas x' = Some rows' /\ x_sum x' = Some sums' /\
    Forall2 (row_rel (fun t t' => exists us, t = TD us /\ t' = TD (Z.quot (num_to_td u2 (td_to_num u us)) 1000 * us_per u2)) read_back) rows rows' /\
    Forall2 (sum_rel (fun t t' => t' = flip u2 (TN (json_time (flip u2 t)))) read_back) sums sums'.
Proof.
  intros (M & U & R & S & O) Eu E E2. destruct (convert_ok x tu u rows Eu M) as (s & Hs & L & E'). rewrite E' in E. injection E as <-.
  rewrite U in *.
  destruct (reload_gen (fun t t' => exists us, t = TN (td_to_num u us) /\ t' = TD (Z.quot (num_to_td u2 (td_to_num u us)) 1000 * us_per u2))
    (fun t t' => t' = flip u2 (TN (json_time (flip u2 t)))) (XReport (x_name x) (x_desc x) (Some s) (Some (map (in_row u) rows)) (Some sums)) tu2 (map (in_row u) rows) sums u2 eq_refl eq_refl S O E2) as (j & x' & rows' & sums' & A & B & _ & _ & C & D & F & G).
  { intros r I. apply in_map_iff in I as (r0 & <- & I). destruct (R r0 I) as (us & Et & _). unfold in_row, with_time. cbn [r_time]. rewrite Et. cbn [flip].
    exists us. split; [reflexivity|]. apply ms_back. }
  { intros us _. reflexivity. }
  exists j, x', rows', sums'. repeat (split; auto).
  clear - F R. revert rows' F. induction rows as [|r rows IH]; intros rows' F; inversion F; subst; constructor; [|apply IH; auto; intros; apply R; now right].
  destruct H1 as (? & ? & ? & ? & ? & (us & T1 & T2) & V). repeat (split; auto). exists us. split; auto.
  destruct (R r (or_introl eq_refl)) as (us0 & Et & _). unfold in_row, with_time in T1. cbn [r_time] in T1. rewrite Et in T1 |- *. cbn [flip] in T1.
  assert (T3 : td_to_num u us0 = td_to_num u us) by congruence. f_equal. rewrite <- (convert_round_trip u us0), <- (convert_round_trip u us). now rewrite T3.
Qed.
Lemma convert_bad x tu rows : (match tu with None => Some "hours"%string | t => t end) = tu -> unit_map tu = None -> x_meas x = Some rows -> rows <> [] ->
  convert_report_time x tu = (Err UserConfigError, XReport (x_name x) (x_desc x) tu (x_meas x) (x_sum x)).
Proof.
  intros E N M Ne. destruct tu as [s|]; [|discriminate]. unfold convert_report_time. rewrite M. rewrite (map_resM_err _ UserConfigError); auto.
  intros r _. unfold conv_row. now rewrite convert_time_err by now apply unit_map_None.
Qed.
Lemma export_bad x tu rows : unit_map (chosen x tu) = None -> x_meas x = Some rows -> rows <> [] -> export_to_json x tu = Err UserConfigError.
Proof.
  intros N M Ne. unfold export_to_json. destruct (export_units_bad _ _ N) as [->|(s & -> & Hs)]; [reflexivity|]. cbn [rbind]. rewrite M.
  rewrite (map_resM_err _ UserConfigError); auto. intros r _. unfold conv_row. now rewrite convert_time_err by now apply unit_map_None.
Qed.

(** ** A second round trip *)
Lemma dict_ext {A} (d d' : dict A) : dwf d -> dkeys d' = dkeys d -> (forall k, dget d' k = dget d k) -> d' = d.
Proof.
  unfold dwf. revert d'. induction d as [|[k a] d IH]; intros [|[k' a'] d'] N K G; cbn [dkeys map fst] in *; try discriminate; auto.
  injection K as -> K. inversion N; subst. pose proof (G k) as Gk. cbn [dget] in Gk. rewrite String.eqb_refl in Gk. injection Gk as ->. f_equal.
  apply IH; auto. intros q. specialize (G q). cbn [dget] in G. destruct (String.eqb q k) eqn:Eq; auto.
  apply String.eqb_eq in Eq. rewrite Eq. transitivity (@None A); [|symmetry]; apply dget_None_keys; auto. unfold dkeys in *. now rewrite K.
Qed.

Lemma out_get u d k : dget (out_sum u d) k =
  match dget d k with
  | None => None
  | Some c => if smem k time_cols
              then match c with
                   | CTime t => Some (CNum (json_time (flip u t)))
                   | CNum q => Some (CNum (json_time (flip u (TN q))))
                   | _ => Some (json_cell c)
                   end
              else Some (json_cell c)
  end.
Proof.
  unfold out_sum, json_sum. rewrite dget_map, !flip_col_get.
  destruct (String.eqb_spec "duration" k) as [<-|N1].
  { cbn. destruct (dget d "duration") as [[]|]; reflexivity. }
  destruct (String.eqb_spec "end time" k) as [<-|N2].
  { cbn. destruct (dget d "end time") as [[]|]; reflexivity. }
  destruct (String.eqb_spec "start time" k) as [<-|N3].
  { cbn. destruct (dget d "start time") as [[]|]; reflexivity. }
  destruct (dget d k) as [c|]; cbn [option_map]; [|reflexivity].
  replace (smem k time_cols) with false; [reflexivity|]. symmetry. apply smem_false. cbn [time_cols In]. intuition congruence.
Qed.
Lemma out_keys u d : dkeys (out_sum u d) = dkeys d.
Proof.
  unfold out_sum, json_sum, dkeys. rewrite map_map. cbn [fst].
  change (map (fun x : string * cell Q => fst x) ?l) with (dkeys l). now rewrite !flip_col_keys.
Qed.
Lemma second_export x tu rows sums u : timed x rows sums ->
  (forall r, In r rows -> ordinary (r_val r)) -> (forall d k q, In d sums -> dget d k = Some (CNum q) -> ordinary q) ->
  unit_map (chosen x tu) = Some u ->
  exists j x', export_to_json x tu = Ok j /\ load j = Ok x' /\ export_to_json x' tu = Ok j.
Proof.
  intros W OV OC Eu. destruct (export_units_ok _ _ _ Eu) as (s & E & Hs & L).
  pose proof (usual_timish _ _ _ W) as TI. destruct W as (M & U & R & S & O).
  destruct (reload_ok s u Hs x tu rows sums E L M U TI) as (j & Ej & Uj & Lj).
  pose proof (export_ok s u Hs x tu rows sums E M U TI) as Ej'. rewrite Ej in Ej'. injection Ej' as ->.
  do 2 eexists. split; [exact Ej|]. split; [exact Lj|].
  rewrite (export_ok s u Hs _ tu (map (fun r => in_row u (out_row u r)) rows) (map (fun d => in_sum u (out_sum u d)) sums)); [|..]; try reflexivity.
  - cbn [x_name x_desc]. do 2 f_equal.
    + rewrite map_map. apply map_ext_in. intros r I. destruct (R r I) as (us & Et & B). unfold out_row, in_row, json_row, with_time.
      cbn [r_param r_step r_dev r_chp r_lot r_time r_val]. rewrite Et. cbn [flip json_time]. f_equal.
      * f_equal. now apply back_stable.
      * apply json_stable, OV, I.
    + rewrite map_map. apply map_ext_in. intros d I. destruct (S d I) as [Wd Sd]. apply dict_ext.
      * unfold dwf. rewrite out_keys. exact Wd.
      * now rewrite out_keys, out_in_keys, out_keys.
      * intros k. rewrite !out_get, out_in_get. destruct (dget d k) as [c|] eqn:Ec; [|reflexivity]. destruct (smem k time_cols) eqn:K.
        -- apply smem_In in K. destruct (Sd k K) as (t & Et & us & -> & B). rewrite Ec in Et. injection Et as ->. cbn [flip json_time]. do 2 f_equal. now apply back_stable.
        -- destruct c; cbn [json_cell]; try reflexivity.
           ++ exfalso. apply smem_false in K. apply K. eapply O; eauto.
           ++ do 2 f_equal. apply json_stable. eapply OC; eauto.
  - revert E. unfold export_units. destruct tu as [t|]; [auto|]. cbn [x_unit]. destruct (x_unit x); intros E; exact (f_equal _ eq_refl).
  - intros d k I J. apply in_map_iff in I as (d0 & <- & I). destruct (S d0 I) as [_ Sd]. destruct (Sd k J) as (t & Et & _).
    unfold timish. rewrite out_in_get, Et. rewrite (proj2 (smem_In k time_cols) J). exact Logic.I.
Qed.
