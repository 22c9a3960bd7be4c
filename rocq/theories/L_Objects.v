(** Steps and step lists as objects. *)
From Coq Require Import Lia.
From Verif Require Import M_Base M_Time M_TestSpec M_Objects S_Time S_TestSpec S_Objects L_Base L_TestSpec.
Open Scope Z_scope.

Section G.
Context {V : Type}.
Implicit Types (h : store V).

Lemma look_cons (steps : list (step V)) r refs : look_up steps (r :: refs) = match nth_error steps r with Some s => [s] | None => [] end ++ look_up steps refs.
Proof. reflexivity. Qed.
Lemma refer_look h refs l : refer h refs l -> look_up (o_steps h) refs = l.
Proof. induction 1 as [|r s refs l E F IH]; auto. now rewrite look_cons, E, IH. Qed.
Lemma look_up_app (steps : list (step V)) a b : look_up steps (a ++ b) = look_up steps a ++ look_up steps b.
Proof. apply flat_map_app. Qed.
Lemma look_refer h refs : (forall r, In r refs -> (r < length (o_steps h))%nat) -> refer h refs (look_up (o_steps h) refs).
Proof.
  induction refs as [|r refs IH]; intros K; [constructor|]. rewrite look_cons.
  destruct (nth_error (o_steps h) r) as [s|] eqn:E; [|apply nth_error_None in E; specialize (K r (or_introl eq_refl)); lia].
  constructor; auto. apply IH. intros x Hx. apply K. now right.
Qed.

(** *** Reachable stores *)
Definition store_ok h : Prop :=
  (forall ls refs r, nth_error (o_lists h) ls = Some refs -> In r refs -> (r < length (o_steps h))%nat) /\
  (forall i own, keeps h i own -> (own < length (o_lists h))%nat).
Definition lists_ok (n : nat) (ls : list (list nat)) : Prop := forall x refs r, nth_error ls x = Some refs -> In r refs -> (r < n)%nat.

Lemma list_at_ok n ls x r : lists_ok n ls -> In r (list_at ls x) -> (r < n)%nat.
Proof. intros K Hr. unfold list_at in Hr. destruct (nth_error ls x) as [l|] eqn:E; [eapply K; eauto|destruct Hr]. Qed.
Lemma set_nth_ok n ls x l : lists_ok n ls -> (forall r, In r l -> (r < n)%nat) -> lists_ok n (set_nth ls x l).
Proof.
  intros K Kl y refs r E Hr. destruct (Nat.eq_dec x y) as [->|N].
  - destruct (Nat.ltb_spec y (length ls)) as [Lt|Ge].
    + rewrite nth_error_set_nth_eq in E by auto. injection E as <-. auto.
    + assert (nth_error (set_nth ls y l) y = None) as Q by (apply nth_error_None; rewrite set_nth_length; lia). congruence.
  - rewrite nth_error_set_nth_neq in E by auto. eapply K; eauto.
Qed.
Lemma extend_ok n ls own a : lists_ok n ls -> (forall r, a = AStep r -> (r < n)%nat) -> lists_ok n (extend ls own a).
Proof.
  intros K Ka. unfold extend. apply set_nth_ok; auto. intros r Hr. apply in_app_or in Hr as [Hr|Hr]; [eapply list_at_ok; eauto|].
  destruct a as [s|b]; [destruct Hr as [<-|[]]; auto|eapply list_at_ok; eauto].
Qed.
Lemma extend_length ls own a : length (extend ls own a) = length ls.
Proof. apply set_nth_length. Qed.
Lemma extend_loop_ok fuel : forall (steps : list (step V)) ls own t a dur ls' r, lists_ok (length steps) ls ->
  extend_loop fuel steps ls own t a dur = Some (ls', r) -> lists_ok (length steps) ls' /\ length ls' = length ls.
Proof.
  induction fuel as [|fuel IH]; intros steps ls own t a dur ls' r K E; cbn [extend_loop] in E.
  - destruct (t <? dur); [discriminate|]. injection E as <- _. auto.
  - destruct (t <? dur); [|injection E as <- _; auto].
    destruct (now steps (extend ls own a) a) as [x|] eqn:N; [|discriminate].
    assert (K' : lists_ok (length steps) (extend ls own a)).
    { apply extend_ok; auto. intros r' ->. cbn [now] in N. destruct (nth_error steps r') eqn:E'; [|discriminate]. apply nth_error_Some. congruence. }
    destruct (add_time t x) as [t'|e]; [|injection E as <- _; split; auto; apply extend_length].
    destruct (IH _ _ _ _ _ _ _ _ K' E) as [A B]. split; auto. now rewrite B, extend_length.
Qed.
Lemma append_obj_ok fuel h own a lp u h' out : store_ok h -> append_obj fuel h own a lp u = Some (h', out) -> store_ok h'.
Proof.
  intros [K1 K2] E. unfold append_obj in E. destruct (now (o_steps h) (o_lists h) a) as [x|] eqn:N; [|discriminate].
  destruct lp as [d|].
  - destruct (loop_duration d u) as [dur|e]; [|injection E as <- _; split; auto].
    destruct (dur =? 0); [injection E as <- _; split; auto|]. destruct (only_meas x); [injection E as <- _; split; auto|].
    destruct (extend_loop fuel (o_steps h) (o_lists h) own 0 a dur) as [[ls r]|] eqn:L; [|discriminate].
    destruct (extend_loop_ok _ _ _ _ _ _ _ _ _ K1 L) as [A B].
    assert (S : store_ok (Store (o_steps h) ls (o_tests h))).
    { split; [exact A|]. intros i o Ki. cbn [o_lists]. rewrite B. exact (K2 i o Ki). }
    destruct r as [t|e]; [destruct (t mod dur =? 0)|]; injection E as <- _; exact S.
  - injection E as <- _. split; [|intros i o Ki; cbn [o_lists]; rewrite extend_length; exact (K2 i o Ki)].
    apply extend_ok; auto. intros r ->. cbn [now] in N. cbn [o_steps]. destruct (nth_error (o_steps h) r) eqn:E'; [|discriminate]. apply nth_error_Some. congruence.
Qed.
Lemma nth_error_snoc {A} (l : list A) x i y : nth_error (l ++ [x]) i = Some y -> nth_error l i = Some y \/ (i = length l /\ x = y).
Proof.
  intros E. destruct (Nat.ltb_spec i (length l)) as [Lt|Ge]; [rewrite nth_error_app1 in E by auto; auto|].
  rewrite nth_error_app2 in E by auto. destruct (i - length l)%nat as [|k] eqn:Q; [|destruct k; discriminate E].
  injection E as <-. right. split; auto. lia.
Qed.
Lemma obj_do_ok fuel h o h' out : store_ok h -> obj_do fuel h o = Some (h', out) -> store_ok h'.
Proof.
  intros K E. pose proof K as [K1 K2]. destruct o as [s|refs|[r|]|i a lp u|r us]; cbn [obj_do] in E.
  - injection E as <- _. split; auto. cbn. intros ls refs r A B. rewrite app_length. specialize (K1 _ _ _ A B). lia.
  - destruct (forallb _ refs) eqn:F; [|discriminate]. injection E as <- _. rewrite forallb_forall in F. split.
    + cbn. intros ls refs' r A B. apply nth_error_snoc in A as [A|[_ <-]]; [eapply K1; eauto|]. specialize (F r B). now apply Nat.ltb_lt in F.
    + intros i o Ki. cbn. rewrite app_length. specialize (K2 i o Ki). lia.
  - destruct (Nat.ltb_spec r (length (o_lists h))); [|discriminate]. injection E as <- _. split; auto.
    intros i o Ki. unfold keeps in Ki. cbn in *. apply nth_error_snoc in Ki as [Ki|[_ <-]]; auto. eapply K2; eauto.
  - injection E as <- _. split.
    + cbn. intros ls refs r A B. apply nth_error_snoc in A as [A|[_ <-]]; [eapply K1; eauto|destruct B].
    + intros i o Ki. unfold keeps in Ki. cbn in *. rewrite app_length. cbn. apply nth_error_snoc in Ki as [Ki|[_ <-]]; [|lia]. specialize (K2 i o Ki). lia.
  - destruct (nth_error (o_tests h) i) as [own|]; [|discriminate].
    destruct (match a with AStep _ => _ | AList _ => _ end); [|discriminate]. eapply append_obj_ok; eauto.
  - destruct (nth_error (o_steps h) r); [|discriminate]. injection E as <- _. split; auto. cbn. rewrite set_nth_length. exact K1.
Qed.
Lemma obj_run_ok fuel ops : forall h h', store_ok h -> obj_run fuel h ops = Some h' -> store_ok h'.
Proof.
  induction ops as [|o ops IH]; intros h h' K E; cbn [obj_run] in E; [injection E as <-; auto|].
  destruct (obj_do fuel h o) as [[h1 out]|] eqn:D; [|discriminate]. eapply IH; [|exact E]. eapply obj_do_ok; eauto.
Qed.
Lemma reached_ok fuel h : reached fuel h -> store_ok h.
Proof.
  intros (ops & E). eapply obj_run_ok; [|exact E]. split; [intros [|?]; discriminate|intros [|?]; discriminate].
Qed.
Lemma ok_list h r refs : store_ok h -> nth_error (o_lists h) r = Some refs -> refer h refs (look_up (o_steps h) refs).
Proof. intros [K _] E. apply look_refer. intros x Hx. exact (K _ _ _ E Hx). Qed.
Lemma ok_test h i own : store_ok h -> keeps h i own -> exists refs, nth_error (o_lists h) own = Some refs /\ refer h refs (look_up (o_steps h) refs).
Proof.
  intros K Ki. destruct (nth_error (o_lists h) own) as [refs|] eqn:E; [eauto using ok_list|]. apply nth_error_None in E. destruct K as [_ K]. specialize (K _ _ Ki). lia.
Qed.
Lemma list_at_some (ls : list (list nat)) r refs : nth_error ls r = Some refs -> list_at ls r = refs.
Proof. unfold list_at. now intros ->. Qed.
Lemma arg_now h a x : arg_is h a x -> now (o_steps h) (o_lists h) a = Some x.
Proof.
  destruct a as [r|r], x as [s|l]; cbn; try easy; [now intros ->|]. intros (refs & E & F). now rewrite (list_at_some _ _ _ E), (refer_look _ _ _ F).
Qed.
Lemma list_look h r l : list_is h r l -> look_up (o_steps h) (list_at (o_lists h) r) = l.
Proof. intros (refs & E & F). now rewrite (list_at_some _ _ _ E), (refer_look _ _ _ F). Qed.

(** *** Another list *)
Definition refs_of (ls : list (list nat)) (a : sarg) : list nat := match a with AStep r => [r] | AList r => list_at ls r end.
Lemma set_set {A} (l : list A) i x y : set_nth (set_nth l i x) i y = set_nth l i y.
Proof. revert i. induction l as [|z l IH]; intros [|i]; cbn; auto. now rewrite IH. Qed.
Lemma at_set (ls : list (list nat)) i x : (i < length ls)%nat -> list_at (set_nth ls i x) i = x.
Proof. intros K. apply list_at_some, nth_error_set_nth_eq, K. Qed.
Lemma at_set_neq (ls : list (list nat)) i j x : i <> j -> list_at (set_nth ls i x) j = list_at ls j.
Proof. intros K. unfold list_at. now rewrite nth_error_set_nth_neq. Qed.
Lemma refs_of_set ls own x a : a <> AList own -> refs_of (set_nth ls own x) a = refs_of ls a.
Proof. destruct a as [r|r]; intros N; auto. cbn. apply at_set_neq. intros ->. now apply N. Qed.
Lemma now_set (steps : list (step V)) ls own x a : a <> AList own -> now steps (set_nth ls own x) a = now steps ls a.
Proof. destruct a as [r|r]; intros N; auto. cbn. rewrite at_set_neq; [reflexivity|]. intros ->. now apply N. Qed.
Lemma now_items (steps : list (step V)) ls a x : now steps ls a = Some x -> items x = look_up steps (refs_of ls a).
Proof.
  destruct a as [r|r]; cbn; [destruct (nth_error steps r) eqn:E; [|discriminate]; intros Q; injection Q as <-; now rewrite ?app_nil_r|].
  intros Q; now injection Q as <-.
Qed.
Lemma copies_S_end {A} n (l : list A) : copies (S n) l = copies n l ++ l.
Proof. unfold copies. induction n as [|n IH]; cbn in *; [now rewrite app_nil_r|]. now rewrite IH, app_assoc at 1. Qed.
Lemma look_copies (steps : list (step V)) n refs : look_up steps (copies n refs) = cycles n (look_up steps refs).
Proof. unfold copies. induction n as [|n IH]; auto. cbn [repeat concat cycles]. now rewrite look_up_app, IH. Qed.
Lemma set_same {A} (l : list A) i x : nth_error l i = Some x -> set_nth l i x = l.
Proof. revert i. induction l as [|y l IH]; intros [|i] E; try discriminate; cbn in *; [congruence|]. now rewrite IH. Qed.

Lemma loop_other (steps : list (step V)) ls own a x dur refs : a <> AList own -> (own < length ls)%nat -> now steps ls a = Some x ->
  forall fuel k t,
  match append_loop fuel (look_up steps (refs ++ copies k (refs_of ls a))) t x dur with
  | None => extend_loop fuel steps (set_nth ls own (refs ++ copies k (refs_of ls a))) own t a dur = None
  | Some (l', r) => exists n, l' = look_up steps (refs ++ copies n (refs_of ls a)) /\
      extend_loop fuel steps (set_nth ls own (refs ++ copies k (refs_of ls a))) own t a dur = Some (set_nth ls own (refs ++ copies n (refs_of ls a)), r)
  end.
Proof.
  intros Na Lt N. induction fuel as [|fuel IH]; intros k t; cbn [append_loop extend_loop].
  - destruct (t <? dur); eauto.
  - destruct (t <? dur); [|eauto]. set (ls1 := set_nth ls own (refs ++ copies k (refs_of ls a))).
    assert (X : extend ls1 own a = set_nth ls own (refs ++ copies (S k) (refs_of ls a))).
    { unfold extend, ls1. rewrite set_set, at_set by auto. f_equal. rewrite copies_S_end, app_assoc. f_equal. fold (refs_of (set_nth ls own (refs ++ copies k (refs_of ls a))) a). now apply refs_of_set. }
    assert (Y : add_once (look_up steps (refs ++ copies k (refs_of ls a))) x = look_up steps (refs ++ copies (S k) (refs_of ls a))).
    { rewrite add_once_items, (now_items _ _ _ _ N), copies_S_end, app_assoc, (look_up_app _ (refs ++ _)). reflexivity. }
    rewrite X, Y, now_set, N by auto. destruct (add_time t x) as [t'|e]; [apply IH|]. eauto.
Qed.
Lemma copies_0 {A} (l m : list A) : m ++ copies 0 l = m.
Proof. apply app_nil_r. Qed.
(** A list object other than the test's own: append_steps as in M_TestSpec.v. *)
Lemma append_other fuel h own refs a x lp u : store_ok h -> nth_error (o_lists h) own = Some refs -> a <> AList own -> arg_is h a x ->
  match append_steps fuel (look_up (o_steps h) refs) x lp u with
  | None => append_obj fuel h own a lp u = None
  | Some (l', out) => exists n, l' = look_up (o_steps h) (refs ++ copies n (refs_of (o_lists h) a)) /\
      append_obj fuel h own a lp u = Some (Store (o_steps h) (set_nth (o_lists h) own (refs ++ copies n (refs_of (o_lists h) a))) (o_tests h), out)
  end.
Proof.
  intros K Ho Na Ha. apply arg_now in Ha. assert (Lt : (own < length (o_lists h))%nat) by (apply nth_error_Some; congruence).
  assert (Z0 : h = Store (o_steps h) (set_nth (o_lists h) own (refs ++ copies 0 (refs_of (o_lists h) a))) (o_tests h)).
  { rewrite copies_0, set_same by auto. now destruct h. }
  unfold append_steps, append_obj. rewrite Ha. destruct lp as [d|].
  - destruct (loop_duration d u) as [dur|e]; [|exists 0%nat; split; [now rewrite copies_0|now rewrite <- Z0]].
    destruct (dur =? 0); [exists 0%nat; split; [now rewrite copies_0|now rewrite <- Z0]|].
    destruct (only_meas x); [exists 0%nat; split; [now rewrite copies_0|now rewrite <- Z0]|].
    pose proof (loop_other (o_steps h) (o_lists h) own a x dur refs Na Lt Ha fuel 0 0) as Lp.
    rewrite copies_0, (set_same _ _ _ Ho) in Lp.
    destruct (append_loop fuel (look_up (o_steps h) refs) 0 x dur) as [[l' r]|]; [|now rewrite Lp].
    destruct Lp as (n & -> & ->). destruct r as [t|e]; [destruct (t mod dur =? 0)|]; exists n; auto.
  - exists 1%nat. rewrite add_once_items, (now_items _ _ _ _ Ha). unfold copies. cbn [repeat concat]. rewrite app_nil_r, look_up_app. split; auto.
    unfold extend. rewrite (list_at_some _ _ _ Ho). reflexivity.
Qed.

(** *** The own list *)
Lemma counted_closed c n : counted c n = c * (2 * 2 ^ Z.of_nat n - 2).
Proof. induction n as [|n IH]; [cbn; lia|]. cbn [counted]. rewrite IH, Nat2Z.inj_succ, Z.pow_succ_r by lia. ring. Qed.
Lemma pow_nat n : Z.of_nat (2 ^ n) = 2 ^ Z.of_nat n.
Proof. induction n as [|n IH]; auto. rewrite Nat.pow_succ_r', Nat2Z.inj_mul, IH, (Nat2Z.inj_succ n), Z.pow_succ_r by lia. reflexivity. Qed.
Lemma copies_add {A} n m (l : list A) : copies n l ++ copies m l = copies (n + m) l.
Proof. unfold copies. now rewrite repeat_app, concat_app. Qed.
Lemma extend_own ls own v n : (own < length ls)%nat -> extend (set_nth ls own (copies (2 ^ n) v)) own (AList own) = set_nth ls own (copies (2 ^ S n) v).
Proof. intros Lt. unfold extend. rewrite set_set, at_set, copies_add by auto. f_equal. f_equal. cbn. lia. Qed.
Lemma own_time (steps : list (step V)) n v t : add_time t (Many (look_up steps (copies n v))) = Ok (t + Z.of_nat n * stress_time (look_up steps v)).
Proof. cbn [add_time]. now rewrite fold_time, look_copies, stress_time_cycles. Qed.

Section Own.
Variables (steps : list (step V)) (ls : list (list nat)) (own : nat) (v : list nat) (dur : Z).
Hypothesis Lt : (own < length ls)%nat.
Local Notation c := (stress_time (look_up steps v)).
Local Notation go := (extend_loop (V := V)).
Lemma own_step fuel n : go (S fuel) steps (set_nth ls own (copies (2 ^ n) v)) own (counted c n) (AList own) dur =
  if counted c n <? dur then go fuel steps (set_nth ls own (copies (2 ^ S n) v)) own (counted c (S n)) (AList own) dur
  else Some (set_nth ls own (copies (2 ^ n) v), Ok (counted c n)).
Proof.
  cbn [extend_loop]. destruct (counted c n <? dur); auto. rewrite extend_own by auto. cbn [now]. rewrite at_set, own_time by auto. rewrite pow_nat. reflexivity.
Qed.
Lemma own_done n : dur <= counted c n -> forall fuel, go fuel steps (set_nth ls own (copies (2 ^ n) v)) own (counted c n) (AList own) dur
  = Some (set_nth ls own (copies (2 ^ n) v), Ok (counted c n)).
Proof. intros D fuel. destruct fuel; cbn [extend_loop]; (destruct (Z.ltb_spec (counted c n) dur); [lia|auto]). Qed.
Lemma own_goes n k : (k <= n)%nat -> (forall m, (k <= m < n)%nat -> counted c m < dur) -> dur <= counted c n ->
  forall fuel, (n - k <= fuel)%nat -> go fuel steps (set_nth ls own (copies (2 ^ k) v)) own (counted c k) (AList own) dur
  = Some (set_nth ls own (copies (2 ^ n) v), Ok (counted c n)).
Proof.
  intros Hk B D fuel. revert k Hk B. induction fuel as [|fuel IH]; intros k Hk B F.
  - assert (k = n) as -> by lia. now apply own_done.
  - destruct (Nat.eq_dec k n) as [->|Ne]; [now apply own_done|]. rewrite own_step.
    destruct (Z.ltb_spec (counted c k) dur) as [_|G]; [|specialize (B k); lia]. apply IH; [lia|intros; apply B; lia|lia].
Qed.
Lemma own_never : c <= 0 -> 0 < dur -> forall fuel k, go fuel steps (set_nth ls own (copies (2 ^ k) v)) own (counted c k) (AList own) dur = None.
Proof.
  intros C D. assert (B : forall k, counted c k < dur).
  { intros k. rewrite counted_closed. assert (0 < 2 ^ Z.of_nat k) by (apply Z.pow_pos_nonneg; lia). nia. }
  induction fuel as [|fuel IH]; intros k.
  - cbn [extend_loop]. specialize (B k). now destruct (Z.ltb_spec (counted c k) dur); [|lia].
  - rewrite own_step. specialize (B k). destruct (Z.ltb_spec (counted c k) dur); [apply IH|lia].
Qed.
End Own.

Lemma counted_grows c n m : 0 < c -> (n < m)%nat -> counted c n < counted c m.
Proof.
  intros C L. rewrite !counted_closed. assert (2 ^ Z.of_nat n < 2 ^ Z.of_nat m) by (apply Z.pow_lt_mono_r; lia). nia.
Qed.
Lemma counted_reaches c d : 0 < c -> d <= counted c (Z.to_nat d).
Proof.
  intros C. rewrite counted_closed. destruct (Z.leb_spec d 0) as [A|A].
  - destruct d; try lia; cbn; lia.
  - assert (Z.of_nat (Z.to_nat d) < 2 ^ Z.of_nat (Z.to_nat d)) as P by (apply Z.pow_gt_lin_r; lia). rewrite Z2Nat.id in * by lia. nia.
Qed.
Lemma passes_exists c d : 0 < c -> exists n, passes c d n.
Proof.
  intros C. assert (K : forall k, d <= counted c k -> exists n, passes c d n).
  { induction k as [k IH] using (well_founded_induction lt_wf). intros D. destruct k as [|k]; [exists 0%nat; split; auto; lia|].
    destruct (Z.leb_spec d (counted c k)) as [A|A]; [apply (IH k); auto|]. exists (S k). split; auto. intros m Lm.
    destruct (Nat.eq_dec m k) as [->|Ne]; auto. pose proof (counted_grows c m k C). lia. }
  exact (K _ (counted_reaches c d C)).
Qed.
Lemma passes_unique c d n m : passes c d n -> passes c d m -> n = m.
Proof. intros [A B] [A' B']. destruct (Nat.lt_trichotomy n m) as [L|[L|L]]; auto; [specialize (B' n L)|specialize (B m L)]; lia. Qed.

Lemma append_own fuel h own refs u : nth_error (o_lists h) own = Some refs ->
  append_obj fuel h own (AList own) None u = Some (Store (o_steps h) (set_nth (o_lists h) own (refs ++ refs)) (o_tests h), Ok tt).
Proof. intros E. unfold append_obj. cbn [now]. unfold extend. now rewrite (list_at_some _ _ _ E). Qed.
Lemma own_not_meas h own refs : nth_error (o_lists h) own = Some refs -> stress_time (look_up (o_steps h) refs) <> 0 -> only_meas (Many (look_up (o_steps h) refs)) = false.
Proof.
  intros _ C. cbn [only_meas]. destruct (forallb is_meas (look_up (o_steps h) refs)) eqn:F; auto. exfalso. apply C. rewrite forallb_forall in F.
  revert F. unfold stress_time. generalize (look_up (o_steps h) refs). intros l. induction l as [|s l IH]; intros F; auto. cbn.
  rewrite IH by (intros; apply F; now right). specialize (F s (or_introl eq_refl)). now destruct s.
Qed.
Lemma append_own_loop h own refs d u dur n : nth_error (o_lists h) own = Some refs -> loop_duration d u = Ok dur -> dur <> 0 ->
  let c := stress_time (look_up (o_steps h) refs) in 0 < c -> passes c dur n -> forall fuel, (n <= fuel)%nat ->
  append_obj fuel h own (AList own) (Some d) u =
  Some (Store (o_steps h) (set_nth (o_lists h) own (copies (2 ^ n) refs)) (o_tests h), if counted c n mod dur =? 0 then Ok tt else Err UserWarningE).
Proof.
  intros E D Nz c C [P1 P2] fuel F. unfold append_obj. cbn [now]. rewrite D, (list_at_some _ _ _ E), (own_not_meas h own) by (auto; lia).
  destruct (Z.eqb_spec dur 0); [contradiction|].
  assert (Lt : (own < length (o_lists h))%nat) by (apply nth_error_Some; congruence).
  pose proof (own_goes (o_steps h) (o_lists h) own refs dur Lt n 0 ltac:(lia) (fun m L => P2 m (proj2 L)) P1 fuel ltac:(lia)) as G.
  cbn [Nat.pow counted] in G. unfold copies in G at 1. cbn [repeat concat] in G. rewrite app_nil_r, (set_same _ _ _ E) in G. rewrite G.
  fold c. destruct (counted c n mod dur =? 0); auto.
Qed.
Lemma append_own_never h own refs d u dur : nth_error (o_lists h) own = Some refs -> loop_duration d u = Ok dur -> 0 < dur ->
  (exists s, In s (look_up (o_steps h) refs) /\ is_meas s = false) -> stress_time (look_up (o_steps h) refs) <= 0 ->
  forall fuel, append_obj fuel h own (AList own) (Some d) u = None.
Proof.
  intros E D P (s & Hs & Ns) C fuel. unfold append_obj. cbn [now]. rewrite D, (list_at_some _ _ _ E). destruct (Z.eqb_spec dur 0); [lia|].
  assert (only_meas (Many (look_up (o_steps h) refs)) = false) as ->.
  { cbn [only_meas]. destruct (forallb is_meas _) eqn:F; auto. rewrite forallb_forall in F. specialize (F s Hs). congruence. }
  assert (Lt : (own < length (o_lists h))%nat) by (apply nth_error_Some; congruence).
  pose proof (own_never (o_steps h) (o_lists h) own refs dur Lt C P fuel 0) as G.
  cbn [Nat.pow counted] in G. unfold copies in G. cbn [repeat concat] in G. rewrite app_nil_r, (set_same _ _ _ E) in G. now rewrite G.
Qed.

(** *** Changing a step *)
Lemma set_look h r us refs s : nth_error (o_steps h) r = Some s ->
  stress_time (look_up (set_nth (o_steps h) r (with_duration us s)) refs) =
  stress_time (look_up (o_steps h) refs) + Z.of_nat (count_occ Nat.eq_dec refs r) * (step_time (with_duration us s) - step_time s).
Proof.
  intros E. assert (Lt : (r < length (o_steps h))%nat) by (apply nth_error_Some; congruence).
  induction refs as [|q refs IH]; [cbn; lia|].
  change (q :: refs) with ([q] ++ refs). rewrite !look_up_app, !stress_time_app, IH, count_occ_app, Nat2Z.inj_add. cbn [look_up flat_map count_occ].
  destruct (Nat.eq_dec q r) as [->|N].
  - rewrite nth_error_set_nth_eq, E by auto. unfold stress_time. cbn [app map total Z.of_nat]. ring.
  - rewrite nth_error_set_nth_neq by auto. unfold stress_time. cbn [app map total Z.of_nat]. ring.
Qed.
Lemma count_copies r n refs : count_occ Nat.eq_dec (copies n refs) r = (n * count_occ Nat.eq_dec refs r)%nat.
Proof. unfold copies. induction n as [|n IH]; auto. cbn [repeat concat]. rewrite count_occ_app, IH. lia. Qed.
End G.
