(** The minimiser follows Brent's method. *)
From Coq Require Import Reals QArith Qreals Lra.
From Flocq Require Import Core.
From Verif Require Import M_Base M_Num M_NumR M_Minimize S_Minimize S_Brent L_Base L_Minimize.
Open Scope R_scope.

Lemma golden_eq : gf2 (V := R) = golden.
Proof. rewrite gf2_eq. unfold golden. lra. Qed.

Lemma best_unique E x fx y fy : best E x fx -> best E y fy -> x = y /\ fx = fy.
Proof.
  intros (k & K & Hk) (j & J & Hj). destruct (Hk _ _ _ J) as [A B], (Hj _ _ _ K) as [C D].
  destruct (Nat.lt_trichotomy k j) as [Q|[Q|Q]]; [specialize (B Q); lra| |specialize (D Q); lra].
  subst j. rewrite K in J. now injection J as -> ->.
Qed.
Lemma left_unique lo E x a b : left_of lo E x a -> left_of lo E x b -> a = b.
Proof. intros (K1 & L1 & M1) (K2 & L2 & M2). apply Rle_antisym; auto. Qed.
Lemma right_unique hi E x a b : right_of hi E x a -> right_of hi E x b -> a = b.
Proof. intros (K1 & L1 & M1) (K2 & L2 & M2). apply Rle_antisym; auto. Qed.

Section R.
Variables (lo hi rel abs_ : R).
Hypothesis lohi : lo < hi.
Hypothesis rel_nn : 0 <= rel.
Hypothesis abs_p : 0 < abs_.
Notation tol := (M_Minimize.tol rel abs_).
Notation step := (M_Minimize.step rel abs_).
Notation next_u := (M_Minimize.next_u rel abs_).
Notation update := (M_Minimize.update rel abs_).
Notation converged := (M_Minimize.converged rel abs_).
Lemma abs_nn : 0 <= abs_. Proof. lra. Qed.

(** The state of one element after the evaluations [E]. *)
Record tracks (E : list (R * R)) (s : mst R) : Prop := {
  tk_in : lo < mx s < hi;
  tk_best : best E (mx s) (mfx s);
  tk_left : left_of lo E (mx s) (ma s);
  tk_right : right_of hi E (mx s) (mb s);
  tk_w : (mw s = mx s /\ mfw s = mfx s /\ forall p, In p E -> fst p = mx s) \/ second E (mx s) (mw s, mfw s);
  tk_v : (((mv s = mx s /\ mfv s = mfx s) \/ (mv s = mw s /\ mfv s = mfw s)) /\ forall p, In p E -> fst p = mx s \/ fst p = mw s) \/
         third E (mx s) (mw s) (mv s, mfv s);
  tk_d : last_step E (md s);
  tk_e : step_before E (me s) }.

Lemma tolerance_eq s : tol s = tolerance rel abs_ (mx s).
Proof. apply tol_eq. Qed.

Lemma init_tracks f : tracks [(lo + gf2 * (hi - lo), f)] (minit lo hi f).
Proof.
  assert (G := gf2_range). assert (0 < gf2 * (hi - lo) < / 2 * (hi - lo)).
  { split; [apply Rmult_lt_0_compat; lra|apply Rmult_lt_compat_r; lra]. }
  unfold minit. cbn [nadd nmul nsub ROps]. constructor; cbn [ma mb mv mw mx mfv mfw mfx me md].
  - lra.
  - exists 0%nat. split; [reflexivity|]. intros [|j] y fy Q; [injection Q as <- <-; split; [lra|lia]|]. destruct j; discriminate Q.
  - split; [now left|]. split; [lra|]. intros y [->|[<-|[]]]; cbn [fst]; lra.
  - split; [now left|]. split; [lra|]. intros y [->|[<-|[]]]; cbn [fst]; lra.
  - left. split; auto. split; auto. intros p [<-|[]]. reflexivity.
  - left. split; auto. intros p [<-|[]]. now left.
  - left. split; [cbn; lia|]. unfold n0. cbn. apply q2r_0.
  - exists [], (lo + gf2 * (hi - lo), f). split; auto. left. split; [cbn; lia|]. unfold n0. cbn. apply q2r_0.
Qed.

Lemma converged_done E s : tracks E s -> converged s = true <-> done lo hi rel abs_ E.
Proof.
  intros T. rewrite converged_spec. rewrite mid_eq, tolerance_eq. split.
  - intros C. exists (mx s), (mfx s), (ma s), (mb s). split; [apply T|]. split; [apply T|]. split; [apply T|].
    replace ((ma s + mb s) / 2) with ((mb s + ma s) / 2) by lra. exact C.
  - intros (x & fx & a & b & B & L & Rt & C). destruct (best_unique _ _ _ _ _ B (tk_best _ _ T)) as [-> ->].
    rewrite (left_unique _ _ _ _ _ L (tk_left _ _ T)), (right_unique _ _ _ _ _ Rt (tk_right _ _ T)) in C.
    replace ((mb s + ma s) / 2) with ((ma s + mb s) / 2) by lra. exact C.
Qed.

Lemma next_u_strict s : ma s < mx s < mb s -> converged s = false -> ma s < next_u s < mb s /\ next_u s <> mx s.
Proof.
  intros O C. assert (T : 0 < tol s) by (rewrite tol_eq; assert (0 <= rel * Rabs (mx s)) by (apply Rmult_le_pos; [lra|apply Rabs_pos]); lra).
  assert (C' : ~ Rabs (mx s - mid s) < 2 * tol s - (mb s - mid s)) by (intros Q; apply converged_spec in Q; congruence).
  assert (M := mid_eq s). split.
  - destruct (next_u_cases rel abs_ rel_nn abs_nn s) as [[[A B] _]|[[-> [A|A]]|[-> [A|A]]]]; try lra.
    + split; [lra|]. destruct (Rlt_or_le (mx s + tol s) (mb s)); [lra|]. exfalso. apply C'. rewrite Rabs_left1 by lra. lra.
    + split; [|lra]. destruct (Rlt_or_le (ma s) (mx s - tol s)); [lra|]. exfalso. apply C'. rewrite Rabs_right by lra. lra.
  - intros Q. assert (F := next_u_far rel abs_ rel_nn abs_nn s). rewrite Q in F. replace (mx s - mx s) with 0 in F by lra. rewrite Rabs_R0 in F. lra.
Qed.

(** The step, with its interpolation. *)
Lemma step_exact s : let q := 2 * ((mx s - mv s) * (mfx s - mfw s) - (mx s - mw s) * (mfx s - mfv s)) in
  let p := (mx s - mv s) * ((mx s - mv s) * (mfx s - mfw s)) - (mx s - mw s) * ((mx s - mw s) * (mfx s - mfv s)) in
  let gold := gf2 * ((if Rle_bool (mid s) (mx s) then ma s else mb s) - mx s) in
  exists st0, step s = fin rel abs_ s st0 /\
   ((tol s < Rabs (me s) /\ q <> 0 /\ st0 = - p / q /\ ma s <= mx s + st0 <= mb s /\ Rabs st0 <= Rabs (me s) / 2) \/
    (st0 = gold /\ (Rabs (me s) <= tol s \/ q = 0 \/ ~ (ma s <= mx s + - p / q <= mb s /\ Rabs (- p / q) <= Rabs (me s) / 2)))).
Proof.
  intros q p gold. unfold M_Minimize.step. rewrite tol2_eq. cbv zeta. cbn [nltb nleb nmul nsub nadd nneg nabs ndiv neqb nofQ ROps].
  unfold n0. cbn [nofQ ROps]. rewrite q2r_0, q2r_2, q2r_h.
  destruct (Rlt_bool_spec (tol s) (Rabs (me s))) as [U|U]; cbn [andb].
  - fold q p. destruct (Req_bool_spec q 0) as [Q|Q]; cbn [andb negb].
    + exists gold. split; [reflexivity|]. right. split; auto.
    + assert (P : (if Rlt_bool 0 q then - p else p) / Rabs q = - p / q).
      { destruct (Rlt_bool_spec 0 q) as [Z|Z]; [rewrite Rabs_right by lra; reflexivity|]. rewrite Rabs_left by lra. field. lra. }
      rewrite P. destruct (Rlt_bool_spec (mb s) (mx s + - p / q)) as [A|A]; cbn [orb].
      { exists gold. split; [reflexivity|]. right. split; auto. right; right. lra. }
      destruct (Rlt_bool_spec (mx s + - p / q) (ma s)) as [B|B]; cbn [orb].
      { exists gold. split; [reflexivity|]. right. split; auto. right; right. lra. }
      destruct (Rlt_bool_spec (/ 2 * Rabs (me s)) (Rabs (- p / q))) as [C|C].
      { exists gold. split; [reflexivity|]. right. split; auto. right; right. lra. }
      exists (- p / q). split; [reflexivity|]. left. repeat split; auto; lra.
  - exists gold. split; [reflexivity|]. right. split; auto.
Qed.

(** The interpolation formula. *)
Lemma extremum_formula x fx w fw v fv z : w <> x -> v <> x -> v <> w ->
  let q := 2 * ((x - v) * (fx - fw) - (x - w) * (fx - fv)) in
  let p := (x - v) * ((x - v) * (fx - fw)) - (x - w) * ((x - w) * (fx - fv)) in
  extremum (x, fx) (w, fw) (v, fv) z <-> q <> 0 /\ z = x + - p / q.
Proof.
  intros Nw Nv Nvw q p. split.
  - intros (c0 & c1 & c2 & C & P & Z).
    assert (P1 := P _ (or_introl eq_refl)). assert (P2 := P _ (or_intror (or_introl eq_refl))). assert (P3 := P _ (or_intror (or_intror (or_introl eq_refl)))).
    cbn [fst snd] in P1, P2, P3.
    assert (Eq : q = 2 * c2 * ((x - v) * (x - w) * (w - v))) by (unfold q; rewrite P1, P2, P3; ring).
    assert (Ep : p = (c1 + 2 * c2 * x) * ((x - v) * (x - w) * (w - v))) by (unfold p; rewrite P1, P2, P3; ring).
    assert (D : (x - v) * (x - w) * (w - v) <> 0) by (repeat apply Rmult_integral_contrapositive_currified; lra).
    assert (Q : q <> 0) by (rewrite Eq; apply Rmult_integral_contrapositive_currified; [apply Rmult_integral_contrapositive_currified; lra|exact D]).
    split; auto. rewrite Eq, Ep. replace c1 with (- (2 * c2 * z)) by lra. field. repeat split; auto; lra.
  - intros [Q ->]. set (D := (x - v) * (x - w) * (w - v)).
    assert (Dn : D <> 0) by (unfold D; repeat apply Rmult_integral_contrapositive_currified; lra).
    set (c2 := q / (2 * D)). set (c1 := (fx - fw) / (x - w) - c2 * (x + w)). set (c0 := fx - c1 * x - c2 * (x * x)).
    exists c0, c1, c2. assert (C2 : c2 <> 0) by (unfold c2; apply Rmult_integral_contrapositive_currified; [auto|apply Rinv_neq_0_compat; lra]).
    split; auto.
    assert (W : fw = c0 + c1 * w + c2 * (w * w)) by (unfold c0, c1; field; lra).
    assert (Vv : fv = c0 + c1 * v + c2 * (v * v)).
    { unfold c0, c1, c2, q, D. field. repeat split; lra. }
    split.
    + intros r [<-|[<-|[<-|[]]]]; cbn [fst snd]; auto. unfold c0. ring.
    + assert (Eq : q = 2 * c2 * D) by (unfold c2; field; auto).
      assert (X : fx = c0 + c1 * x + c2 * (x * x)) by (unfold c0; ring).
      assert (Ep : p = (c1 + 2 * c2 * x) * D) by (unfold p, D; rewrite X, W, Vv; ring).
      rewrite Eq, Ep. field. auto.
Qed.

Lemma adjusted_fin s st0 : adjusted rel abs_ (mx s) (ma s) (mb s) (mx s + st0) (mx s + fin rel abs_ s st0).
Proof.
  unfold adjusted, fin. cbv zeta. rewrite <- tolerance_eq. assert (T := tol_nn rel abs_ rel_nn abs_nn s). assert (M := mid_eq s).
  replace (mx s + st0 - mx s) with st0 by ring.
  destruct (Rlt_bool_spec (mx s + st0 - ma s) (2 * tol s)) as [A|A]; cbn [orb].
  - left. split; [now left|]. destruct (Rlt_bool_spec (mx s) (mid s)) as [X|X].
    + rewrite (Rlt_bool_false (Rabs (tol s))) by (rewrite Rabs_pos_eq; lra). left. lra.
    + rewrite (Rlt_bool_false (Rabs (- tol s))) by (rewrite Rabs_Ropp, Rabs_pos_eq; lra). right. lra.
  - destruct (Rlt_bool_spec (mb s - (mx s + st0)) (2 * tol s)) as [B|B].
    + left. split; [now right|]. destruct (Rlt_bool_spec (mx s) (mid s)) as [X|X].
      * rewrite (Rlt_bool_false (Rabs (tol s))) by (rewrite Rabs_pos_eq; lra). left. lra.
      * rewrite (Rlt_bool_false (Rabs (- tol s))) by (rewrite Rabs_Ropp, Rabs_pos_eq; lra). right. lra.
    + right. split; [lra|]. split; [lra|]. destruct (Rlt_bool_spec (Rabs st0) (tol s)) as [S|S].
      * left. split; auto. destruct (Rlt_bool_spec 0 st0); [left|right]; split; lra.
      * right. auto.
Qed.

Lemma step_before_short E e : (length E <= 2)%nat -> step_before E e -> e = 0.
Proof.
  intros L (E0 & p & -> & [[_ Q]|(E1 & p' & x & fx & -> & (k & K & _) & _)]); auto. rewrite !app_length in L. cbn in L.
  destruct E1; [destruct k; discriminate K|cbn in L; lia].
Qed.

Lemma tracks_brent E s : NoDup (map fst E) -> tracks E s -> brent lo hi rel abs_ E (next_u s).
Proof.
  intros Nd T. destruct (step_exact s) as (st0 & E0 & C). exists (mx s), (mfx s), (ma s), (mb s), (me s), (mx s + st0).
  split; [apply T|]. split; [apply T|]. split; [apply T|]. split; [apply T|]. split.
  2:{ unfold M_Minimize.next_u. cbn [nadd ROps]. rewrite E0. apply adjusted_fin. }
  assert (Far : (if Rle_bool (mid s) (mx s) then ma s else mb s) = (if Rle_dec ((ma s + mb s) / 2) (mx s) then ma s else mb s)).
  { rewrite mid_eq. replace ((mb s + ma s) / 2) with ((ma s + mb s) / 2) by lra.
    destruct (Rle_bool_spec ((ma s + mb s) / 2) (mx s)), (Rle_dec ((ma s + mb s) / 2) (mx s)); auto; lra. }
  unfold aim. cbv zeta. rewrite <- tolerance_eq, <- golden_eq.
  (* three points, or a negligible step *)
  assert (D : (second E (mx s) (mw s, mfw s) /\ third E (mx s) (mw s) (mv s, mfv s)) \/ Rabs (me s) <= tol s).
  { assert (Few : forall y, (forall p, In p E -> fst p = mx s \/ fst p = y) -> Rabs (me s) <= tol s).
    { intros y Hy. rewrite (step_before_short E (me s)); [rewrite Rabs_R0; apply tol_nn; auto; apply abs_nn| |apply T].
      rewrite <- (map_length fst). apply (NoDup_incl_length (l := map fst E) (l' := [mx s; y]) Nd). intros z Hz. apply in_map_iff in Hz as (p & <- & Hp). destruct (Hy p Hp) as [->| ->]; cbn; auto. }
    destruct (tk_w _ _ T) as [(_ & _ & A)|A]; [right; apply (Few (mx s)); intros p Hp; left; auto|].
    destruct (tk_v _ _ T) as [(_ & B)|B]; [right; now apply (Few (mw s))|]. now left. }
  destruct D as [[Sw Tv]|Small].
  - assert (Nw : mw s <> mx s) by apply Sw. assert (Nv : mv s <> mx s) by apply Tv. assert (Nvw : mv s <> mw s) by apply Tv.
    assert (Ex := fun z => extremum_formula (mx s) (mfx s) (mw s) (mfw s) (mv s) (mfv s) z Nw Nv Nvw). cbv zeta in Ex.
    destruct C as [(C1 & C2 & C3 & C4 & C5)|(C1 & C2)].
    + left. exists (mw s, mfw s), (mv s, mfv s). split; auto. split; auto. split; auto. split; [|split; auto].
      * apply Ex. split; auto. now rewrite C3.
      * now replace (mx s + st0 - mx s) with st0 by ring.
    + right. split; [now rewrite C1, Far|]. destruct C2 as [C2|C2]; auto. right. exists (mw s, mfw s), (mv s, mfv s). split; auto. split; auto.
      intros z Hz. apply Ex in Hz as [Q ->]. match goal with |- context [mx s + ?a - mx s] => replace (mx s + a - mx s) with a by ring end. destruct C2 as [C2|C2]; [contradiction|exact C2].
  - right. destruct C as [(C1 & _)|(C1 & _)]; [lra|]. split; [now rewrite C1, Far|]. now left.
Qed.

Lemma nth_snoc_inv {A} (E : list A) p j q : nth_error (E ++ [p]) j = Some q -> nth_error E j = Some q \/ (j = length E /\ q = p).
Proof.
  intros Q. destruct (Nat.lt_ge_cases j (length E)) as [L|L]; [rewrite nth_error_app1 in Q by auto; auto|].
  rewrite nth_error_app2 in Q by auto. destruct (j - length E)%nat as [|z] eqn:Z; [|destruct z; discriminate Q]. right. cbn in Q. injection Q as <-. split; [lia|auto].
Qed.

Lemma tracks_update E s fu : tracks E s -> converged s = false ->
  tracks (E ++ [(next_u s, fu)]) (update s fu) /\ ~ In (next_u s) (map fst E).
Proof.
  intros T C. pose proof (tk_in _ _ T) as Hin. pose proof (tk_best _ _ T) as (k & K & Hk). pose proof (tk_left _ _ T) as (L1 & L2 & L3). pose proof (tk_right _ _ T) as (R1 & R2 & R3).
  destruct (next_u_strict s (conj L2 R2) C) as [[U1 U2] U3].
  assert (La : lo <= ma s) by (apply L3; [now left|lra]). assert (Rb : mb s <= hi) by (apply R3; [now left|lra]).
  assert (New : ~ In (next_u s) (map fst E)).
  { intros Q. destruct (Rtotal_order (next_u s) (mx s)) as [Z|[Z|Z]]; auto.
    - specialize (L3 (next_u s) (or_intror Q) Z). lra.
    - specialize (R3 (next_u s) (or_intror Q) Z). lra. }
  assert (Inx : In (mx s, mfx s) E) by (eapply nth_error_In; eauto).
  assert (Min : forall p, In p E -> mfx s <= snd p).
  { intros [y fy] Hp. apply In_nth_error in Hp as [j Hj]. now apply (Hk j y fy Hj). }
  assert (Nu : forall p, In p E -> fst p <> next_u s) by (intros p Hp Q; apply New; rewrite <- Q; now apply in_map).
  assert (Ks : forall lim y, known (E ++ [(next_u s, fu)]) lim y <-> known E lim y \/ y = next_u s).
  { intros lim y. unfold known. rewrite map_app, in_app_iff. cbn. intuition. }
  split; auto.
  assert (Ld : last_step (E ++ [(next_u s, fu)]) (step s)).
  { right. exists E, (next_u s, fu), (mx s), (mfx s). split; auto. split; [apply T|]. unfold M_Minimize.next_u. cbn [fst nadd ROps]. ring. }
  assert (Le : step_before (E ++ [(next_u s, fu)]) (md s)) by (exists E, (next_u s, fu); split; auto; apply T).
  assert (Sd : Rlt_bool (next_u s) (mx s) = negb (Rle_bool (mx s) (next_u s))).
  { destruct (Rlt_bool_spec (next_u s) (mx s)), (Rle_bool_spec (mx s) (next_u s)); auto; lra. }
  unfold M_Minimize.update. cbv zeta. cbn [nleb nltb neqb ROps]. rewrite Sd. clear Sd.
  destruct (Rle_bool_spec fu (mfx s)) as [Less|Less]; cbn [negb andb orb]; constructor; cbn [ma mb mv mw mx mfv mfw mfx me md]; auto.
  - lra.
  - exists (length E). rewrite nth_error_app2, Nat.sub_diag by lia. split; [reflexivity|]. intros j y fy Hj.
    apply nth_snoc_inv in Hj as [Hj|[-> Q]]; [|injection Q as -> ->; split; [lra|lia]].
    split; [apply (Rle_trans _ _ _ Less), (Hk j y fy Hj)|]. intros Q. assert (j < length E)%nat by (apply nth_error_Some; congruence). lia.
  - destruct (Rle_bool_spec (mx s) (next_u s)) as [Up|Dn]; cbn [negb].
    + split; [apply Ks; left; right; apply in_map_iff; now exists (mx s, mfx s)|]. split; [lra|]. intros y Ky Hy. apply Ks in Ky as [Ky| ->]; [|lra].
      destruct (Rle_or_lt y (mx s)) as [Z|Z]; [exact Z|]. destruct Ky as [->|Ky]; [lra|]. specialize (R3 y (or_intror Ky) Z). lra.
    + split; [apply Ks; left; exact L1|]. split; [lra|]. intros y Ky Hy. apply Ks in Ky as [Ky| ->]; [|lra]. apply L3; auto. lra.
  - destruct (Rle_bool_spec (mx s) (next_u s)) as [Up|Dn]; cbn [negb].
    + split; [apply Ks; left; exact R1|]. split; [lra|]. intros y Ky Hy. apply Ks in Ky as [Ky| ->]; [|lra]. apply R3; auto. lra.
    + split; [apply Ks; left; right; apply in_map_iff; now exists (mx s, mfx s)|]. split; [lra|]. intros y Ky Hy. apply Ks in Ky as [Ky| ->]; [|lra].
      destruct (Rle_or_lt (mx s) y) as [Z|Z]; [exact Z|]. destruct Ky as [->|Ky]; [lra|]. specialize (L3 y (or_intror Ky) Z). lra.
  - right. split; [apply in_or_app; now left|]. split; [cbn [fst]; auto|]. intros p Hp Np. apply in_app_iff in Hp as [Hp|[<-|[]]]; [now apply Min|]. now contradiction Np.
  - (* v := old w *)
    destruct (tk_w _ _ T) as [(W1 & W2 & W3)|(W1 & W2 & W3)].
    + left. rewrite W1, W2. split; [now right|]. intros p Hp. apply in_app_iff in Hp as [Hp|[<-|[]]]; [right; auto|now left].
    + right. cbn [fst snd] in W1, W2, W3. split; [apply in_or_app; now left|]. split; [cbn [fst]; apply (Nu _ W1)|]. split; [exact W2|].
      intros p Hp N1 N2. apply in_app_iff in Hp as [Hp|[<-|[]]]; [apply (W3 p Hp N2)|]. now contradiction N1.
  - exists k. split; [now rewrite nth_error_app1 by (apply nth_error_Some; congruence)|]. intros j y fy Hj. apply nth_snoc_inv in Hj as [Hj|[-> Q]]; [exact (Hk j y fy Hj)|]. injection Q as -> ->. split; intros; lra.
  - destruct (Rle_bool_spec (mx s) (next_u s)) as [Up|Dn]; cbn [negb].
    + split; [apply Ks; left; exact L1|]. split; [lra|]. intros y Ky Hy. apply Ks in Ky as [Ky| ->]; [|lra]. now apply L3.
    + split; [apply Ks; now right|]. split; [lra|]. intros y Ky Hy. apply Ks in Ky as [Ky| ->]; [|lra]. specialize (L3 y Ky Hy). lra.
  - destruct (Rle_bool_spec (mx s) (next_u s)) as [Up|Dn]; cbn [negb].
    + split; [apply Ks; now right|]. split; [lra|]. intros y Ky Hy. apply Ks in Ky as [Ky| ->]; [|lra]. specialize (R3 y Ky Hy). lra.
    + split; [apply Ks; left; exact R1|]. split; [lra|]. intros y Ky Hy. apply Ks in Ky as [Ky| ->]; [|lra]. now apply R3.
  - (* w *)
    destruct (tk_w _ _ T) as [(W1 & W2 & W3)|(W1 & W2 & W3)]; [|cbn [fst snd] in W1, W2, W3].
    + rewrite (Req_bool_true _ _ W1), orb_true_r. right. split; [apply in_or_app; right; now left|]. split; [exact U3|]. cbn [snd fst].
      intros p Hp Np. apply in_app_iff in Hp as [Hp|[<-|[]]]; [now contradiction (Np (W3 p Hp))|cbn; lra].
    + rewrite (Req_bool_false _ _ W2), orb_false_r. right. destruct (Rle_bool_spec fu (mfw s)) as [Q|Q].
      * split; [apply in_or_app; right; now left|]. split; [exact U3|]. cbn [snd fst].
        intros p Hp Np. apply in_app_iff in Hp as [Hp|[<-|[]]]; [specialize (W3 p Hp Np); lra|cbn; lra].
      * split; [apply in_or_app; now left|]. split; [exact W2|]. cbn [snd fst].
        intros p Hp Np. apply in_app_iff in Hp as [Hp|[<-|[]]]; [exact (W3 p Hp Np)|cbn; lra].
  - (* v *)
    destruct (tk_w _ _ T) as [(W1 & W2 & W3)|(W1 & W2 & W3)]; [|cbn [fst snd] in W1, W2, W3].
    + rewrite (Req_bool_true _ _ W1), orb_true_r. left. split; [left; auto|]. intros p Hp. apply in_app_iff in Hp as [Hp|[<-|[]]]; [left; auto|now right].
    + rewrite (Req_bool_false _ _ W2), orb_false_r. destruct (Rle_bool_spec fu (mfw s)) as [Q|Q].
      * right. split; [apply in_or_app; now left|]. split; [exact W2|]. split; [exact (Nu _ W1)|]. cbn [snd fst].
        intros p Hp N1 N2. apply in_app_iff in Hp as [Hp|[<-|[]]]; [exact (W3 p Hp N1)|]. now contradiction N2.
      * destruct (tk_v _ _ T) as [(Vc & V3)|(V1 & V2 & V3 & V4)]; [|cbn [fst snd] in V1, V2, V3, V4].
        { assert (Z : (if Rle_bool fu (mfv s) || Req_bool (mv s) (mw s) || Req_bool (mv s) (mx s) then next_u s else mv s) = next_u s /\
            (if Rle_bool fu (mfv s) || Req_bool (mv s) (mw s) || Req_bool (mv s) (mx s) then fu else mfv s) = fu).
          { destruct Vc as [[Vx _]|[Vw _]]; [rewrite (Req_bool_true _ _ Vx), orb_true_r; auto|rewrite (Req_bool_true _ _ Vw), orb_true_r; auto]. }
          destruct Z as [Z1 Z2]. rewrite Z1, Z2. right. split; [apply in_or_app; right; now left|]. split; [exact U3|].
          split; [intros Z; exact (Nu _ W1 (eq_sym Z))|]. cbn [snd fst]. intros p Hp N1 N2. apply in_app_iff in Hp as [Hp|[<-|[]]]; [destruct (V3 p Hp); contradiction|cbn; lra]. }
        { rewrite (Req_bool_false _ _ V3), (Req_bool_false _ _ V2), !orb_false_r. right. destruct (Rle_bool_spec fu (mfv s)) as [Y|Y].
          - split; [apply in_or_app; right; now left|]. split; [exact U3|].
            split; [intros Z; exact (Nu _ W1 (eq_sym Z))|]. cbn [snd fst]. intros p Hp N1 N2. apply in_app_iff in Hp as [Hp|[<-|[]]]; [specialize (V4 p Hp N1 N2); lra|cbn; lra].
          - split; [apply in_or_app; now left|]. split; [exact V2|]. split; [exact V3|].
            cbn [snd fst]. intros p Hp N1 N2. apply in_app_iff in Hp as [Hp|[<-|[]]]; [exact (V4 p Hp N1 N2)|cbn; lra]. }
Qed.

(** A whole search, element by element. *)
Definition ended (E : list (R * R)) : Prop :=
  exists E1, E1 <> [] /\ (exists E2, E = E1 ++ E2) /\ done lo hi rel abs_ E1.

Lemma ended_app E p : ended E -> ended (E ++ p).
Proof. intros (E1 & N & (E2 & ->) & D). exists E1. split; auto. split; auto. exists (E2 ++ p). now rewrite app_assoc. Qed.

Lemma snoc_split {A} (E : list A) p E1 q E2 : E ++ [p] = E1 ++ q :: E2 -> (E2 = [] /\ E1 = E /\ q = p) \/ exists E3, E2 = E3 ++ [p] /\ E = E1 ++ q :: E3.
Proof.
  destruct (exists_last (l := q :: E2) ltac:(discriminate)) as (L & z & Q). intros H. rewrite Q, app_assoc in H. apply app_inj_tail in H as [H ->].
  destruct L as [|l L]; [cbn in Q; injection Q as -> ->; left; rewrite app_nil_r in H; auto|].
  cbn in Q. injection Q as -> ->. right. exists L. auto.
Qed.

Section Run.
Variables (lg : bool) (F : list R -> M (list R)).

Lemma run_follows n maxiter w r w' : mrun rel abs_ lg F n lo hi maxiter w = (Ok r, w') ->
  length (mr_states r) = n /\ forall i, (i < n)%nat -> let E := history_of i (mr_evals r) in
    (exists f0 E', E = (lo + gf2 * (hi - lo), f0) :: E') /\
    forall E1 p E2, E = E1 ++ p :: E2 -> E1 <> [] -> ended E1 \/ brent lo hi rel abs_ E1 (fst p).
Proof.
  intros H. set (P := fun (ss : list (mst R)) ev => length ss = n /\ forall i s, nth_error ss i = Some s -> let E := history_of i ev in
    (exists f0 E', E = (lo + gf2 * (hi - lo), f0) :: E') /\ (ended E \/ (tracks E s /\ NoDup (map fst E))) /\
    forall E1 p E2, E = E1 ++ p :: E2 -> E1 <> [] -> ended E1 \/ brent lo hi rel abs_ E1 (fst p)).
  destruct (mrun_inv rel abs_ lg F n lo hi maxiter P) with (w := w) (r := r) (w' := w') as [[Hl Hp] _]; auto.
  - intros f0 L0. split; [now rewrite map_length|]. intros i s Hi. rewrite nth_error_map in Hi. destruct (nth_error f0 i) as [f|] eqn:Ef; [|discriminate Hi]. injection Hi as <-.
    assert (Li : (i < n)%nat) by (rewrite <- L0; apply nth_error_Some; congruence).
    assert (Eq : history_of i [(repeat (lo + gf2 * (hi - lo)) n, f0)] = [(lo + gf2 * (hi - lo), f)]).
    { unfold history_of. cbn [map fst snd]. rewrite (nth_error_nth _ _ _ Ef). f_equal. f_equal. rewrite (nth_indep _ _ (lo + gf2 * (hi - lo))) by (now rewrite repeat_length). apply nth_repeat. }
    cbv zeta. rewrite Eq. split; [eauto|]. split.
    + right. split; [apply init_tracks|]. constructor; [intros []|constructor].
    + intros [|q E1] p E2 Q N; [congruence|]. destruct E1; discriminate Q.
  - intros ss ev fus [Ls Hs] Nc Lf. split.
    { rewrite (zip_update_length rel abs_); auto. }
    intros i s' Hi. destruct (zip_update_nth_inv rel abs_ ss fus i s' Hi) as (s & f & Hs1 & Hf & ->). destruct (Hs i s Hs1) as ((f0 & E' & Q0) & Q1 & Q2). cbv zeta.
    assert (Eq : history_of i (ev ++ [(map next_u ss, fus)]) = history_of i ev ++ [(next_u s, f)]).
    { unfold history_of. rewrite map_app. cbn [map fst snd]. rewrite (nth_error_nth _ _ _ Hf). f_equal. f_equal. f_equal. apply nth_error_nth. rewrite nth_error_map, Hs1. reflexivity. }
    rewrite Eq. set (E := history_of i ev) in *. split; [rewrite Q0; cbn; eauto|].
    assert (NE : E <> []) by (rewrite Q0; discriminate).
    assert (Now : ended E \/ (tracks E s /\ NoDup (map fst E) /\ converged s = false)).
    { destruct Q1 as [Q1|[Q1 Nd]]; auto. destruct (converged s) eqn:C; auto. left. exists E. split; auto. split; [exists []; now rewrite app_nil_r|]. now apply (converged_done E s). }
    split.
    + destruct Now as [D|(T & Nd & C)]; [left; now apply ended_app|right]. destruct (tracks_update E s f T C) as [T' Nw]. split; auto.
      rewrite map_app. cbn [map fst]. apply NoDup_rev in Nd. rewrite <- (rev_involutive (map fst E ++ _)). apply NoDup_rev. rewrite rev_app_distr. cbn. constructor; auto. now rewrite <- in_rev.
    + intros E1 p E2 Sp N1. apply snoc_split in Sp as [(-> & -> & ->)|(E3 & -> & Sp)]; [|now apply (Q2 E1 p E3)].
      destruct Now as [D|(T & Nd & C)]; [now left|right]. now apply tracks_brent.
  - split; auto. intros i Hi. destruct (nth_error (mr_states r) i) as [s|] eqn:Es; [|apply nth_error_None in Es; lia].
    destruct (Hp i s Es) as (A & _ & B). auto.
Qed.

Lemma mloop_stop fuel ss ev w r w' : mloop rel abs_ lg F fuel ss ev w = (Ok r, w') ->
  forallb converged (mr_states r) = true \/ length (mr_evals r) = (length ev + fuel)%nat.
Proof.
  revert ss ev w. induction fuel as [|k IH]; intros ss ev w; cbn [mloop]; destruct (forallb converged ss) eqn:C; intros H.
  - injection H as <- <-. now left.
  - injection H as <- <-. right. cbn. lia.
  - injection H as <- <-. now left.
  - apply bind_ok in H as (fus & w1 & _ & H). apply IH in H as [H|H]; auto. right. rewrite H, app_length. cbn. lia.
Qed.

Lemma run_single maxiter w r w' : mrun rel abs_ lg F 1 lo hi maxiter w = (Ok r, w') ->
  let E := history_of 0 (mr_evals r) in
  (exists s, mr_states r = [s] /\ best E (mx s) (mfx s)) /\
  (forall E1 p E2, E = E1 ++ p :: E2 -> E1 <> [] -> brent lo hi rel abs_ E1 (fst p) /\ ~ done lo hi rel abs_ E1) /\
  (done lo hi rel abs_ E \/ length E = S maxiter) /\ (exists f0 E', E = (lo + gf2 * (hi - lo), f0) :: E').
Proof.
  intros H. set (P := fun (ss : list (mst R)) ev => exists s, ss = [s] /\ let E := history_of 0 ev in
    (exists f0 E', E = (lo + gf2 * (hi - lo), f0) :: E') /\ tracks E s /\ NoDup (map fst E) /\
    forall E1 p E2, E = E1 ++ p :: E2 -> E1 <> [] -> brent lo hi rel abs_ E1 (fst p) /\ ~ done lo hi rel abs_ E1).
  destruct (mrun_inv rel abs_ lg F 1 lo hi maxiter P) with (w := w) (r := r) (w' := w') as [(s & Es & E0 & T & Nd & Hp) _]; auto.
  - intros f0 L0. destruct f0 as [|f [|]]; try discriminate L0. exists (minit lo hi f). split; [reflexivity|]. cbn [history_of map repeat nth fst snd].
    split; [eauto|]. split; [apply init_tracks|]. split; [constructor; [intros []|constructor]|].
    intros [|q E1] p E2 Q N; [congruence|]. destruct E1; discriminate Q.
  - intros ss ev fus (s & -> & (f0 & E' & Q0) & T & Nd & Q2) Nc Lf. destruct fus as [|f [|]]; try discriminate Lf. exists (update s f). split; [reflexivity|].
    cbn [forallb] in Nc. rewrite andb_true_r in Nc.
    assert (Eq : history_of 0 (ev ++ [(map next_u [s], [f])]) = history_of 0 ev ++ [(next_u s, f)]) by (unfold history_of; now rewrite map_app).
    cbv zeta. rewrite Eq. set (E := history_of 0 ev) in *. split; [rewrite Q0; cbn; eauto|].
    destruct (tracks_update E s f T Nc) as [T' Nw]. split; [exact T'|]. split.
    { rewrite map_app. cbn [map fst]. apply NoDup_rev in Nd. rewrite <- (rev_involutive (map fst E ++ _)). apply NoDup_rev. rewrite rev_app_distr. cbn. constructor; auto. now rewrite <- in_rev. }
    intros E1 p E2 Sp N1. apply snoc_split in Sp as [(-> & -> & ->)|(E3 & -> & Sp)]; [|now apply (Q2 E1 p E3)].
    split; [now apply tracks_brent|]. intros D. apply (converged_done _ _ T) in D. congruence.
  - cbv zeta in *. split; [exists s; split; [exact Es|apply T]|]. split; [exact Hp|]. split; [|exact E0].
    unfold mrun in H. apply bind_ok in H as (f0 & w1 & _ & H). apply mloop_stop in H as [H|H].
    + left. rewrite Es in H. cbn [forallb] in H. rewrite andb_true_r in H. now apply (converged_done _ _ T).
    + right. unfold history_of. rewrite map_length, H. reflexivity.
Qed.

Lemma mloop_values g : (forall xs w fs w', F xs w = (Ok fs, w') -> fs = map g xs) ->
  forall fuel ss ev w r w', (forall us fus, In (us, fus) ev -> fus = map (fun x => g (to_point lg x)) us) ->
  mloop rel abs_ lg F fuel ss ev w = (Ok r, w') ->
  forall us fus, In (us, fus) (mr_evals r) -> fus = map (fun x => g (to_point lg x)) us.
Proof.
  intros HF. induction fuel as [|k IH]; intros ss ev w r w' Hev; cbn [mloop]; destruct (forallb converged ss); intros H; try (injection H as <- <-; exact Hev).
  apply bind_ok in H as (fus & w1 & Hf & H). refine (IH _ _ _ _ _ _ H). intros us fus' Q. apply in_app_iff in Q as [Q|[Q|[]]]; [now apply Hev|]. injection Q as <- <-.
  apply evalF_ok in Hf as [Hf _]. apply HF in Hf. now rewrite map_map in Hf.
Qed.
Lemma run_values g n maxiter w r w' : (forall xs w fs w', F xs w = (Ok fs, w') -> fs = map g xs) ->
  mrun rel abs_ lg F n lo hi maxiter w = (Ok r, w') ->
  forall us fus, In (us, fus) (mr_evals r) -> fus = map (fun x => g (to_point lg x)) us.
Proof.
  intros HF H. unfold mrun in H. apply bind_ok in H as (f0 & w1 & Hf & H). eapply mloop_values; [exact HF| |exact H].
  intros us fus [Q|[]]. injection Q as <- <-. apply evalF_ok in Hf as [Hf _]. apply HF in Hf. now rewrite map_map in Hf.
Qed.
End Run.

(** On a parabola. *)
Lemma aim_parabola E c0 c1 c2 m x fx a b e t : c2 <> 0 -> c1 + 2 * c2 * m = 0 ->
  (forall p, In p E -> snd p = c0 + c1 * fst p + c2 * (fst p * fst p)) -> best E x fx ->
  aim rel abs_ E x fx a b e t ->
  t = m \/ (t = x + golden * ((if Rle_dec ((a + b) / 2) x then a else b) - x) /\
            (Rabs e <= tolerance rel abs_ x \/ ~ (a <= m <= b /\ Rabs (m - x) <= Rabs e / 2))).
Proof.
  intros C M P (k & K & _) A. assert (Inx := nth_error_In _ _ K).
  assert (Ex : forall w v, second E x w -> third E x (fst w) v -> extremum (x, fx) w v m).
  { intros w v (W & _) (V & _). exists c0, c1, c2. split; auto. split; auto. intros p [<-|[<-|[<-|[]]]]; auto. }
  destruct A as [([w fw] & [v fv] & W & V & _ & X & _)|(-> & [Q|([w fw] & [v fv] & W & V & U)])].
  - left. assert (X' := Ex _ _ W V). cbn [fst] in V.
    apply extremum_formula in X as [_ ->]; [|apply W|apply V|apply V]. apply extremum_formula in X' as [_ ->]; [|apply W|apply V|apply V]. reflexivity.
  - right. auto.
  - right. split; [reflexivity|]. right. exact (U m (Ex _ _ W V)).
Qed.
End R.

(** New points keep away from the old ones. *)
Lemma brent_apart lo hi rel abs_ E u : 0 <= rel -> 0 <= abs_ -> brent lo hi rel abs_ E u -> ~ done lo hi rel abs_ E ->
  exists x fx, best E x fx /\ forall y fy, In (y, fy) E -> tolerance rel abs_ x <= Rabs (u - y).
Proof.
  intros Hr Ha (x & fx & a & b & e & t & B & L & Rt & _ & _ & A) D. exists x, fx. split; [exact B|].
  assert (C : ~ Rabs (x - (a + b) / 2) < 2 * tolerance rel abs_ x - (b - (a + b) / 2)).
  { intros Q. apply D. exists x, fx, a, b. auto. }
  assert (T : 0 <= tolerance rel abs_ x) by (unfold tolerance; assert (Q := Rabs_pos x); nra).
  destruct L as (_ & La & Lm). destruct Rt as (_ & Rb & Rm). unfold adjusted in A. cbv zeta in A. set (tol := tolerance rel abs_ x) in *.
  assert (U : tol <= Rabs (u - x) /\ tol <= u - a /\ tol <= b - u).
  { destruct A as [(_ & [(X & ->)|(X & ->)])|(A1 & A2 & [(A3 & [(X & ->)|(X & ->)])|(A3 & ->)])].
    - rewrite (Rabs_left1 (x - _)) in C by lra. rewrite Rabs_pos_eq by lra. lra.
    - rewrite (Rabs_pos_eq (x - _)) in C by lra. rewrite Rabs_left1 by lra. lra.
    - rewrite Rabs_pos_eq by lra. lra.
    - rewrite Rabs_left1 by lra. lra.
    - lra. }
  destruct U as (U1 & U2 & U3). intros y fy Hy. assert (Ky : forall l, known E l y) by (intros l; right; now apply (in_map fst) in Hy).
  destruct (Rtotal_order y x) as [Z|[->|Z]]; [| exact U1|].
  - specialize (Lm y (Ky lo) Z). rewrite Rabs_pos_eq; lra.
  - specialize (Rm y (Ky hi) Z). rewrite Rabs_left1; lra.
Qed.

Lemma lim_lt (lg : bool) lo hi : (lg = true -> 0 < lo) -> lo < hi -> lim lg lo < lim lg hi.
Proof.
  intros P H. destruct lg; cbn [lim]; auto. cbn. assert (Q := ln10_p). apply Rmult_lt_compat_r; [now apply Rinv_0_lt_compat|]. apply ln_increasing; auto.
Qed.

Section Minimize.
Variables (F : list R -> M (list R)) (lo hi prec eps : R) (maxiter : nat) (lg : bool) (w w' : world) (r : mres R).
Hypothesis lgp : lg = true -> 0 < lo.
Hypothesis lohi : lo < hi.
Hypothesis precp : 0 < prec.
Notation a := (lim lg lo).
Notation b := (lim lg hi).

Lemma minimize_brent n : minimize_run F n lo hi prec eps maxiter lg w = (Ok r, w') ->
  forall i, (i < n)%nat -> let E := history_of i (mr_evals r) in
    (exists f0 E', E = (a + golden * (b - a), f0) :: E') /\
    forall E1 p E2, E = E1 ++ p :: E2 -> E1 <> [] ->
      (exists E0 E3, E1 = E0 ++ E3 /\ E0 <> [] /\ done a b (sqrt eps) (prec / 3) E0) \/
      brent a b (sqrt eps) (prec / 3) E1 (fst p).
Proof.
  intros H i Hi. rewrite run_unfold in H. destruct (run_follows a b (sqrt eps) (prec / 3) (lim_lt _ _ _ lgp lohi) (sqrt_pos _) ltac:(lra) lg F n maxiter w r w' H) as [_ Q].
  destruct (Q i Hi) as [Q1 Q2]. cbv zeta. rewrite <- golden_eq. split; [exact Q1|].
  intros E1 p E2 Sp N. destruct (Q2 E1 p E2 Sp N) as [(E0 & N0 & (E3 & ->) & D)|B]; auto. left. exists E0, E3. auto.
Qed.

Lemma minimize_brent_single : minimize_run F 1 lo hi prec eps maxiter lg w = (Ok r, w') ->
  let E := history_of 0 (mr_evals r) in
  (exists x fx, minimize F 1 lo hi prec eps maxiter lg w = (Ok [to_point lg x], w') /\ best E x fx) /\
  (exists f0 E', E = (a + golden * (b - a), f0) :: E') /\
  (forall E1 p E2, E = E1 ++ p :: E2 -> E1 <> [] ->
     brent a b (sqrt eps) (prec / 3) E1 (fst p) /\ ~ done a b (sqrt eps) (prec / 3) E1) /\
  (done a b (sqrt eps) (prec / 3) E \/ length E = S maxiter) /\
  (forall g, (forall xs w fs w', F xs w = (Ok fs, w') -> fs = map g xs) ->
     forall p, In p E -> snd p = g (to_point lg (fst p))).
Proof.
  intros H. assert (H0 := H). rewrite run_unfold in H.
  destruct (run_single a b (sqrt eps) (prec / 3) (lim_lt _ _ _ lgp lohi) (sqrt_pos _) ltac:(lra) lg F maxiter w r w' H) as ((s & Es & B) & Q2 & Q3 & Q4). cbv zeta. rewrite <- golden_eq.
  split; [|split; [exact Q4|split; [exact Q2|split; [exact Q3|]]]].
  - exists (mx s), (mfx s). split; auto. unfold minimize. rewrite (bind_eval _ _ _ _ _ H0). now rewrite Es.
  - intros g Hg p Hp. unfold history_of in Hp. apply in_map_iff in Hp as ((us & fus) & <- & Hp). cbn [fst snd].
    destruct (mrun_inside (sqrt eps) (prec / 3) (sqrt_pos _) ltac:(lra) lg F 1 a b maxiter w r w' eq_refl) as (_ & I & _); auto.
    { apply Rlt_le, lim_lt; auto. }
    destruct (I us fus Hp) as (u & f & -> & -> & _). assert (Z := run_values a b (sqrt eps) (prec / 3) lg F g 1 maxiter w r w' Hg H _ _ Hp). cbn in Z. injection Z as ->. reflexivity.
Qed.
End Minimize.
