(** The minimiser in binary64: functions of moderate size give no NaN (C89). *)
From Coq Require Import Reals QArith Lra Lia.
From Flocq Require Import Core BinarySingleNaN Relative.
From Verif Require Import M_Base M_Num M_NumB M_Minimize S_Digits S_MinB L_Base L_Digits L_MinB L_MinB2.
Open Scope R_scope.

(** ** Bounds by powers of two *)
Definition bd (k : Z) (x : b64t) : Prop := fin64 x = true /\ Rabs (val x) <= bpow radix2 k.
Lemma rnd_bd k z : (-1000 <= k <= 1000)%Z -> Rabs z <= bpow radix2 k -> Rabs (rnd z) <= bpow radix2 k.
Proof.
  intros K L. rewrite rnd_abs. replace (bpow radix2 k) with (rnd (bpow radix2 k)).
  - now apply rnd_le.
  - apply rnd_format, generic_format_bpow. unfold FLT_exp. lia.
Qed.
Lemma bd_mono j k x : (j <= k)%Z -> bd j x -> bd k x.
Proof. intros L [F V]. split; auto. eapply Rle_trans; [exact V|]. now apply bpow_le. Qed.
Lemma bd_minus k x y : (-1000 <= k <= 990)%Z -> bd k x -> bd k y -> bd (k + 1) (Bminus mode_NE x y).
Proof.
  intros K [XF XV] [YF YV].
  assert (L : Rabs (val x - val y) <= bpow radix2 (k + 1)).
  { rewrite bpow_plus. change (bpow radix2 1) with 2. unfold Rminus. eapply Rle_trans; [apply Rabs_triang|]. rewrite Rabs_Ropp. lra. }
  destruct (minus_ok x y) as [V F]; auto.
  { eapply Rle_trans; [exact L|]. apply bpow_le. lia. }
  split; auto. rewrite V. apply rnd_bd; auto. lia.
Qed.
Lemma bd_mult j k x y : (-1000 <= j + k <= 990)%Z -> bd j x -> bd k y -> bd (j + k) (Bmult mode_NE x y).
Proof.
  intros K [XF XV] [YF YV].
  assert (L : Rabs (val x * val y) <= bpow radix2 (j + k)).
  { rewrite bpow_plus, Rabs_mult. apply Rmult_le_compat; auto; apply Rabs_pos. }
  destruct (times_ok x y) as [V F]; auto.
  { eapply Rle_trans; [exact L|]. apply bpow_le. lia. }
  split; auto. rewrite V. apply rnd_bd; auto. lia.
Qed.
Lemma bd_zero k (x : b64t) : fin64 x = true -> val x = 0 -> bd k x.
Proof. intros F V. split; auto. rewrite V, Rabs_R0. apply bpow_ge_0. Qed.
Lemma bd_opp k x : bd k x -> bd k (Bopp x).
Proof. intros [F V]. split; [now rewrite is_finite_Bopp|]. now rewrite B2R_Bopp, Rabs_Ropp. Qed.
Lemma bd_not_nan k x : bd k x -> x <> B754_nan.
Proof. intros [F _] ->. discriminate. Qed.
Lemma div_not_nan (p q : b64t) : fin64 p = true -> fin64 q = true -> val q <> 0 -> Bdiv mode_NE p q <> B754_nan.
Proof.
  intros P Q N E. assert (C := Bdiv_correct 53 1024 b64_prec b64_emax mode_NE p q N). rewrite E in C.
  destruct (Rlt_bool _ _).
  - destruct C as (_ & C & _). rewrite P in C. discriminate.
  - destruct (xorb _ _); discriminate C.
Qed.

Section Run.
Variables log10 pow10 : b64t -> b64t.
#[local] Instance OB : NumOps b64t := b_ops log10 pow10.
Variables rel abs : b64t.
Hypothesis REL : between 0 (/ 1000) rel.
Hypothesis ABS : between (/ 10 ^ 30) (10 ^ 30) abs.
Notation A := (val abs).
Notation next_u := (next_u rel abs).
Notation update := (update rel abs).
Notation converged := (converged rel abs).

(** the proposed step, before the two final adjustments *)
Definition raw (s : mst b64t) : b64t :=
  let a := ma s in let b := mb s in let x := mx s in
  let m := mid s in let t := tol rel abs s in
  let use_para := nltb t (nabs (me s)) in
  let xdiff1 := if use_para then nsub x (mw s) else n0 in
  let xdiff2 := if use_para then nsub x (mv s) else n0 in
  let qsub1 := nmul xdiff1 (nsub (mfx s) (mfv s)) in
  let qsub2 := nmul xdiff2 (nsub (mfx s) (mfw s)) in
  let q := nmul (nofQ 2) (nsub qsub2 qsub1) in
  let use_para := use_para && negb (neqb q n0) in
  let p := if use_para then nsub (nmul xdiff2 qsub2) (nmul xdiff1 qsub1) else n0 in
  let p := if nltb n0 q then nneg p else p in
  let q := nabs q in
  let further := if nleb m x then a else b in
  let gold := nmul gf2 (nsub further x) in
  let st := if use_para then ndiv p q else gold in
  let u_tent := nadd x st in
  let change := use_para && (nltb b u_tent || nltb u_tent a || nltb (nmul (nofQ (1 # 2)) (nabs (me s))) (nabs st)) in
  if change then gold else st.
Lemma step_raw (s : mst b64t) : step rel abs s = finb log10 pow10 rel abs s (raw s).
Proof.
  unfold M_Minimize.step, finb, raw. change (L_MinB.OB log10 pow10) with OB. cbn [nadd nsub nmul ndiv nneg nabs nltb nleb neqb OB b_ops].
  match goal with |- (if Bltb (Babs (if (Bltb (Bminus _ (if ?c then ?x1 else ?x2) _) _ || _)%bool then _ else _)) _ then _ else _) = _ =>
    destruct c; reflexivity end.
Qed.

Section Radius.
Variable B : R.
Hypothesis ROOM : 0 <= B <= 2000000000000 * A.

Definition okf (L H : R) (s : mst b64t) : Prop :=
  between L H (ma s) /\ between L H (mb s) /\ between L H (mx s) /\ between L H (mv s) /\ between L H (mw s) /\
  moderate (mfv s) /\ moderate (mfw s) /\ moderate (mfx s).

Lemma B_small : B <= bpow radix2 142.
Proof.
  destruct ABS as [_ [_ U]]. apply Rle_trans with (2000000000000 * 10 ^ 30); [lra|]. change (bpow radix2 142) with (IZR (2 ^ 142)). lra.
Qed.
Lemma bd_in L H x : - B <= L -> H <= B -> between L H x -> bd 142 x.
Proof. intros LB HB [F V]. split; auto. apply Rle_trans with B; [apply Rabs_le; lra|apply B_small]. Qed.

Lemma raw_not_nan L H (s : mst b64t) : - B <= L -> H <= B -> okf L H s -> raw s <> B754_nan.
Proof.
  intros LB HB (IA & IB & IX & IV & IW & MV & MW & MX).
  apply (bd_in L H _ LB HB) in IA, IB, IX, IV, IW.
  assert (M : forall k, moderate k -> bd 400 k) by (intros k [? ?]; split; auto). apply M in MV, MW, MX.
  assert (Z : forall k, bd k (n0 : b64t)) by (intros k; apply bd_zero; reflexivity).
  unfold raw. cbn [nadd nsub nmul ndiv nneg nabs nltb nleb neqb OB b_ops].
  set (up := Bltb (tol rel abs s) (Babs (me s))).
  set (x1 := (if up then (Bminus mode_NE (mx s) (mw s) : b64t) else n0) : b64t).
  set (x2 := (if up then (Bminus mode_NE (mx s) (mv s) : b64t) else n0) : b64t).
  assert (X1 : bd 143 x1) by (unfold x1; destruct up; [apply (bd_minus 142); auto; lia|apply Z]).
  assert (X2 : bd 143 x2) by (unfold x2; destruct up; [apply (bd_minus 142); auto; lia|apply Z]).
  clearbody x1 x2.
  assert (Q1 : bd 544 (Bmult mode_NE x1 (Bminus mode_NE (mfx s) (mfv s)))).
  { apply (bd_mult 143 401); auto; [lia|]. apply (bd_minus 400); auto; lia. }
  assert (Q2 : bd 544 (Bmult mode_NE x2 (Bminus mode_NE (mfx s) (mfw s)))).
  { apply (bd_mult 143 401); auto; [lia|]. apply (bd_minus 400); auto; lia. }
  set (q1 := Bmult mode_NE x1 _) in *. set (q2 := Bmult mode_NE x2 _) in *. clearbody q1 q2.
  assert (Q : bd 546 (Bmult mode_NE (nofQ 2 : b64t) (Bminus mode_NE q2 q1))).
  { apply (bd_mult 1 545); [lia| |apply (bd_minus 544); auto; lia].
    destruct (b_two log10 pow10) as [V F]. split; [exact F|]. change (nofQ 2) with (b_of_Q 2) in V. change (nofQ 2) with (b_of_Q 2).
    rewrite V. change (bpow radix2 1) with 2. rewrite Rabs_pos_eq; lra. }
  set (q := Bmult mode_NE (nofQ 2 : b64t) _) in *. clearbody q.
  set (up2 := up && negb (Beqb q (n0 : b64t))).
  set (p0 := (if up2 then (Bminus mode_NE (Bmult mode_NE x2 q2) (Bmult mode_NE x1 q1) : b64t) else n0) : b64t).
  assert (P0 : bd 688 p0).
  { unfold p0. destruct up2; [|apply Z]. apply (bd_minus 687); [lia| |]; apply (bd_mult 143 544); auto; lia. }
  set (p := (if Bltb (n0 : b64t) q then (Bopp p0 : b64t) else p0) : b64t).
  assert (P : bd 688 p) by (unfold p; destruct (Bltb (n0 : b64t) q); [apply bd_opp|]; auto).
  clearbody p.
  set (gold := Bmult mode_NE (gf2 : b64t) (Bminus mode_NE ((if Bleb (mid s) (mx s) then ma s else mb s) : b64t) (mx s))).
  assert (G : bd 143 gold).
  { apply (bd_mult 0 143); [lia| |].
    - destruct (b_gf2 log10 pow10) as [F V]. change (L_MinB.OB log10 pow10) with OB in F, V. split; [exact F|]. change (bpow radix2 0) with 1. apply Rabs_le.
      enough (38 / 100 <= val (gf2 : b64t) <= 39 / 100) by lra. exact V.
    - apply (bd_minus 142); [lia| |auto]. destruct (Bleb (mid s) (mx s)); auto. }
  clearbody gold. apply bd_not_nan in G.
  assert (UQ : up2 = true -> val q <> 0).
  { unfold up2. intros U2. apply andb_true_iff in U2 as [_ U2]. apply negb_true_iff in U2.
    rewrite Beqb_correct in U2; [|apply Q|reflexivity]. intros E. rewrite E in U2. change (val (n0 : b64t)) with 0 in U2.
    rewrite Req_bool_true in U2; [discriminate|reflexivity]. }
  clearbody p0 up2. destruct up2; [|exact G].
  match goal with |- (if ?c then _ else _) <> _ => destruct c end; [exact G|].
  apply div_not_nan; [apply P|rewrite is_finite_Babs; apply Q|]. rewrite B2R_Babs. apply Rabs_no_R0. auto.
Qed.

Lemma okf_okn L H s : okf L H s -> okn L H s.
Proof. intros (IA & IB & IX & _). repeat split; try apply IA; try apply IB. right. exact IX. Qed.
Lemma between_nan L H x : nan_or_between L H x -> x <> B754_nan -> between L H x.
Proof. clear. intros [->|?]; tauto. Qed.

Lemma next_u_not_nan L H s : - B <= L -> H <= B -> okf L H s -> next_u s <> B754_nan.
Proof.
  intros LB HB OK E. assert (N := raw_not_nan L H s LB HB OK). destruct OK as (IA & IB & IX & _).
  assert (IA' := between_mono _ _ (- B) B _ LB HB IA). assert (IB' := between_mono _ _ (- B) B _ LB HB IB). assert (IX' := between_mono _ _ (- B) B _ LB HB IX).
  unfold M_Minimize.next_u in E. change (nadd (mx s) (step rel abs s)) with (Bplus mode_NE (mx s) (step rel abs s)) in E. rewrite step_raw in E.
  assert (NB := next_b log10 pow10 rel abs REL ABS B ROOM s (raw s) IA' IB' IX'). cbv zeta in NB. destruct NB as [[NN _]|(F & _)]; [tauto|].
  rewrite E in F. discriminate.
Qed.
Lemma update_okf L H s fu : okf L H s -> between L H (next_u s) -> moderate fu -> okf L H (update s fu).
Proof.
  intros (IA & IB & IX & IV & IW & MV & MW & MX) U MU. unfold okf, M_Minimize.update. cbn [ma mb mx mv mw mfv mfw mfx].
  set (u := next_u s) in *. clearbody u.
  refine (conj _ (conj _ (conj _ (conj _ (conj _ (conj _ (conj _ _)))))));
    repeat match goal with |- context [if ?c then _ else _] => destruct c end; assumption.
Qed.
End Radius.
End Run.
