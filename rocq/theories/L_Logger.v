(** Lemmas about the logger. *)
From Verif Require Import M_Base M_Logger S_Logger.

Lemma hkind_eqb_spec a b : reflect (a = b) (hkind_eqb a b).
Proof. destruct a, b; constructor; congruence. Qed.
Lemma handler_eqb_spec a b : reflect (a = b) (handler_eqb a b).
Proof.
  unfold handler_eqb. destruct a as [i k], b as [j m]. cbn. destruct (Nat.eqb_spec i j), (hkind_eqb_spec k m); constructor; congruence.
Qed.

Notation fk k l := (filter (fun h => hkind_eqb (h_kind h) k) l).

Lemma add_In x h l : In x (add_handler h l) <-> In x l \/ x = h.
Proof.
  unfold add_handler. destruct (existsb _ l) eqn:E.
  - apply existsb_exists in E as (y & I & E). destruct (handler_eqb_spec y h); [subst y|discriminate]. split; [auto|]. now intros [?| ->].
  - rewrite in_app_iff. cbn [In]. intuition auto.
Qed.
Lemma add_fk_other k h l : h_kind h <> k -> fk k (add_handler h l) = fk k l.
Proof.
  intros N. unfold add_handler. destruct (existsb _ l); auto. rewrite filter_app. cbn [filter].
  destruct (hkind_eqb_spec (h_kind h) k); [congruence|]. apply app_nil_r.
Qed.
Lemma add_fk_new h l : fk (h_kind h) l = [] -> fk (h_kind h) (add_handler h l) = [h].
Proof.
  intros E. unfold add_handler. destruct (existsb _ l) eqn:X.
  - apply existsb_exists in X as (y & I & X). destruct (handler_eqb_spec y h); [subst y|discriminate].
    assert (In h (fk (h_kind h) l)) as J by (apply filter_In; split; auto; now destruct (hkind_eqb_spec (h_kind h) (h_kind h))).
    rewrite E in J. destruct J.
  - rewrite filter_app, E. cbn [filter app]. now destruct (hkind_eqb_spec (h_kind h) (h_kind h)).
Qed.
Lemma remove_In_other x h l : x <> h -> In x (remove_handler h l) <-> In x l.
Proof.
  intros N. induction l as [|y l IH]; [reflexivity|]. cbn [remove_handler]. destruct (handler_eqb_spec y h) as [->|M]; cbn [In]; [|rewrite IH; reflexivity].
  intuition congruence.
Qed.
Lemma remove_fk_other k h l : h_kind h <> k -> fk k (remove_handler h l) = fk k l.
Proof.
  intros N. induction l as [|y l IH]; [reflexivity|]. cbn [remove_handler]. destruct (handler_eqb_spec y h) as [->|M]; cbn [filter].
  - destruct (hkind_eqb_spec (h_kind h) k); [congruence|reflexivity].
  - rewrite IH. reflexivity.
Qed.
Lemma remove_fk_only h l : fk (h_kind h) l = [h] -> fk (h_kind h) (remove_handler h l) = [].
Proof.
  induction l as [|y l IH]; [reflexivity|]. cbn [remove_handler filter]. destruct (handler_eqb_spec y h) as [->|M].
  - destruct (hkind_eqb_spec (h_kind h) (h_kind h)); [|congruence]. intros E. injection E as ->. reflexivity.
  - destruct (hkind_eqb_spec (h_kind y) (h_kind h)) as [e|n]; [intros E; congruence|]. intros E. cbn [filter].
    destruct (hkind_eqb_spec (h_kind y) (h_kind h)); [congruence|]. auto.
Qed.

(** [find_existing] gives the last handler of each type. *)
Definition lasto (l : list handler) : option handler := match rev l with [] => None | x :: _ => Some x end.
Lemma lasto_app l x : lasto (l ++ [x]) = Some x.
Proof. unfold lasto. now rewrite rev_app_distr. Qed.
Lemma find_existing_spec l : find_existing l = (lasto (fk HStream l), lasto (fk HFile l)).
Proof.
  unfold find_existing. induction l as [|x l IH] using rev_ind; [reflexivity|]. rewrite fold_left_app, IH. cbn [fold_left]. rewrite !filter_app.
  cbn [filter]. destruct (h_kind x); cbn [hkind_eqb fst snd]; rewrite ?app_nil_r, ?lasto_app; reflexivity.
Qed.
Lemma find_kind l es ef : find_existing l = (es, ef) ->
  (forall h, es = Some h -> h_kind h = HStream) /\ (forall h, ef = Some h -> h_kind h = HFile).
Proof.
  rewrite find_existing_spec. intros E. injection E as <- <-. unfold lasto.
  assert (G : forall k h, match rev (fk k l) with [] => None | x :: _ => Some x end = Some h -> h_kind h = k).
  { intros k h. destruct (rev (fk k l)) as [|x r] eqn:E; [discriminate|]. intros Q. injection Q as <-.
    assert (I : In x (fk k l)) by (rewrite in_rev, E; now left). apply filter_In in I as [_ I]. destruct (hkind_eqb_spec (h_kind x) k); congruence. }
  split; intros h Q; eapply G; exact Q.
Qed.

Definition alone {A} (l : list A) : Prop := length l <= 1.
Lemma alone_cases {A} (l : list A) : alone l -> l = [] \/ exists x, l = [x].
Proof. unfold alone. destruct l as [|x [|]]; cbn; intros; [auto|eauto|lia]. Qed.

(** replacing the handler of one type *)
Definition after (k : hkind) (old : list handler) (new : option handler) : list handler :=
  match new with None => old | Some h => if hkind_eqb (h_kind h) k then [h] else [] end.

Lemma install_own k new l ex : alone (fk k l) -> ex = lasto (fk k l) ->
  fk k (install ex new l) = after k (fk k l) new.
Proof.
  intros A ->. destruct new as [h|]; [|reflexivity]. cbn [install after].
  assert (R : fk k (match lasto (fk k l) with Some x => remove_handler x l | None => l end) = []).
  { destruct (alone_cases _ A) as [E|[x E]]; rewrite E; cbn [lasto rev app]; [exact E|].
    assert (K : h_kind x = k).
    { assert (I : In x (fk k l)) by (rewrite E; now left). apply filter_In in I as [_ I]. destruct (hkind_eqb_spec (h_kind x) k); congruence. }
    subst k. now apply remove_fk_only. }
  destruct (hkind_eqb_spec (h_kind h) k) as [<-|N]; [now apply add_fk_new|]. now rewrite add_fk_other.
Qed.
Lemma install_else k new l ex : (forall h, ex = Some h -> h_kind h <> k) -> (forall h, new = Some h -> h_kind h <> k) ->
  fk k (install ex new l) = fk k l.
Proof.
  intros X N. destruct new as [h|]; [|reflexivity]. cbn [install]. rewrite add_fk_other by auto. destruct ex as [x|]; [|reflexivity].
  apply remove_fk_other. auto.
Qed.

Lemma configure_kind g c : fitting c -> alone (of_kind HStream g) -> alone (of_kind HFile g) ->
  of_kind HStream (configure g c) = after HStream (of_kind HStream g) (c_stream c) /\
  of_kind HFile (configure g c) = after HFile (of_kind HFile g) (c_file c).
Proof.
  intros [F1 F2] A1 A2. unfold configure, of_kind in *. destruct (find_existing (lg_handlers g)) as [es ef] eqn:E. cbn [lg_handlers].
  destruct (find_kind _ _ _ E) as [K1 K2]. rewrite find_existing_spec in E. injection E as E1 E2. split.
  - rewrite install_else; [now apply install_own| |exact F2].
    intros h Q. rewrite (K2 h Q). discriminate.
  - assert (S1 : fk HFile (install es (c_stream c) (lg_handlers g)) = fk HFile (lg_handlers g)).
    { apply install_else; [|exact F1]. intros h Q. rewrite (K1 h Q). discriminate. }
    rewrite <- S1. apply install_own; [now rewrite S1|now rewrite S1].
Qed.
Lemma after_alone k l n : alone l -> alone (after k l n).
Proof. destruct n as [h|]; cbn; auto. destruct (hkind_eqb _ _); cbn; intros; unfold alone; cbn; lia. Qed.

Lemma latest_nil {A} (arg : call -> option A) : latest arg [] None. Proof. intros c []. Qed.
Lemma latest_snoc {A} (arg : call -> option A) cs c x : latest arg (cs ++ [c]) x ->
  match arg c with Some a => x = Some a | None => latest arg cs x end.
Proof.
  destruct x as [a|]; cbn [latest].
  - intros (pre & c0 & post & E & Ea & N). destruct post as [|p post _] using rev_ind.
    + apply app_inj_tail in E as [-> ->]. now rewrite Ea.
    + rewrite app_comm_cons, app_assoc in E. apply app_inj_tail in E as [-> ->]. rewrite N by (rewrite in_app_iff; cbn; auto).
      exists pre, c0, post. split; [reflexivity|]. split; auto. intros c' I. apply N. rewrite in_app_iff. auto.
  - intros N. rewrite N by (rewrite in_app_iff; cbn; auto). intros c' I. apply N. rewrite in_app_iff. auto.
Qed.
Lemma latest_ex {A} (arg : call -> option A) cs : exists y, latest arg cs y.
Proof.
  induction cs as [|c cs [y Hy]] using rev_ind; [exists None; apply latest_nil|].
  destruct (arg c) as [a|] eqn:E.
  - exists (Some a), cs, c, []. split; auto. split; auto. intros c' [].
  - exists y. destruct y as [b|]; cbn [latest] in *.
    + destruct Hy as (pre & c0 & post & -> & Eb & N). exists pre, c0, (post ++ [c]). rewrite <- app_assoc. split; auto. split; auto.
      intros c' I. apply in_app_iff in I as [I|[<-|[]]]; auto.
    + intros c' I. apply in_app_iff in I as [I|[<-|[]]]; auto.
Qed.

Lemma configure_all_snoc g cs c : configure_all g (cs ++ [c]) = configure (configure_all g cs) c.
Proof. unfold configure_all. rewrite fold_left_app. reflexivity. Qed.

Lemma configure_all_kind g cs : (forall c, In c cs -> fitting c) ->
  alone (of_kind HStream g) -> alone (of_kind HFile g) -> forall s f,
  latest c_stream cs s -> latest c_file cs f ->
  of_kind HStream (configure_all g cs) = after HStream (of_kind HStream g) s /\
  of_kind HFile (configure_all g cs) = after HFile (of_kind HFile g) f.
Proof.
  intros F A1 A2. induction cs as [|c cs IH] using rev_ind; intros s f L1 L2.
  - destruct s as [h|]; [destruct L1 as (pre & ? & ? & E & _); destruct pre; discriminate|].
    destruct f as [h|]; [destruct L2 as (pre & ? & ? & E & _); destruct pre; discriminate|]. split; reflexivity.
  - rewrite configure_all_snoc.
    assert (Fc : fitting c) by (apply F; rewrite in_app_iff; cbn; auto).
    assert (Fs : forall c, In c cs -> fitting c) by (intros; apply F; rewrite in_app_iff; auto).
    destruct (latest_ex c_stream cs) as [s0 Hs0], (latest_ex c_file cs) as [f0 Hf0].
    destruct (IH Fs s0 f0 Hs0 Hf0) as [I1 I2].
    destruct (configure_kind (configure_all g cs) c Fc) as [J1 J2]; [rewrite I1; now apply after_alone|rewrite I2; now apply after_alone|].
    rewrite J1, J2. apply latest_snoc in L1, L2. split.
    + destruct (c_stream c) as [h|] eqn:E; [subst s; reflexivity|]. cbn [after]. destruct (IH Fs s f0 L1 Hf0) as [X _]. exact X.
    + destruct (c_file c) as [h|] eqn:E; [subst f; reflexivity|]. cbn [after]. destruct (IH Fs s0 f Hs0 L2) as [_ X]. exact X.
Qed.

Lemma install_other new l ex h : (forall x, ex = Some x -> h_kind x <> HOther) -> h_kind h = HOther ->
  (In h (install ex new l) <-> In h l \/ new = Some h).
Proof.
  intros X K. destruct new as [n|]; cbn [install]; [|intuition discriminate]. rewrite add_In.
  assert (R : In h (match ex with Some x => remove_handler x l | None => l end) <-> In h l).
  { destruct ex as [x|]; [|reflexivity]. apply remove_In_other. intros ->. apply (X x); auto. }
  rewrite R. split; intros [I|I]; auto; right; congruence.
Qed.
Lemma configure_other g c h : h_kind h = HOther ->
  (In h (lg_handlers (configure g c)) <-> In h (lg_handlers g) \/ c_stream c = Some h \/ c_file c = Some h).
Proof.
  intros K. unfold configure. destruct (find_existing (lg_handlers g)) as [es ef] eqn:E. cbn [lg_handlers].
  destruct (find_kind _ _ _ E) as [K1 K2].
  rewrite install_other; [rewrite install_other; [tauto| |auto]| |auto]; intros x Q; [rewrite (K1 x Q)|rewrite (K2 x Q)]; discriminate.
Qed.
Lemma configure_all_other g cs h : h_kind h = HOther ->
  (In h (lg_handlers (configure_all g cs)) <-> In h (lg_handlers g) \/ supplied cs h).
Proof.
  intros K. induction cs as [|c cs IH] using rev_ind.
  - cbn. split; [auto|]. intros [I|(c & [] & _)]. exact I.
  - rewrite configure_all_snoc, configure_other, IH by auto. unfold supplied. split.
    + intros [[I|(c' & I & E)]|E]; [auto| |]; right; [exists c'|exists c]; rewrite in_app_iff; cbn; auto.
    + intros [I|(c' & I & E)]; [auto|]. apply in_app_iff in I as [I|[<-|[]]]; [left; right; eauto|auto].
Qed.

Lemma NoDup_remove_handler h l : NoDup l -> NoDup (remove_handler h l).
Proof.
  induction 1 as [|x l N D IH]; cbn [remove_handler]; [constructor|]. destruct (handler_eqb_spec x h) as [->|M]; [exact D|].
  constructor; auto. intros I. apply N. revert I. clear. induction l as [|y l IH]; cbn [remove_handler]; [auto|].
  destruct (handler_eqb y h); cbn [In]; intuition auto.
Qed.
Lemma NoDup_add h l : NoDup l -> NoDup (add_handler h l).
Proof.
  intros D. unfold add_handler. destruct (existsb _ l) eqn:E; auto. apply (NoDup_Add (a := h) (l := l)).
  - replace (l ++ [h]) with (l ++ h :: []) by reflexivity. rewrite <- (app_nil_r l) at 1. apply Add_app.
  - split; auto. intros I. rewrite <- Bool.not_true_iff_false in E. apply E. apply existsb_exists. exists h. split; auto. now destruct (handler_eqb_spec h h).
Qed.
Lemma configure_NoDup g c : NoDup (lg_handlers g) -> NoDup (lg_handlers (configure g c)).
Proof.
  intros D. unfold configure. destruct (find_existing (lg_handlers g)) as [es ef]. cbn [lg_handlers].
  assert (I : forall e n l, NoDup l -> NoDup (install e n l)).
  { intros e n l Dl. unfold install. destruct n; auto. apply NoDup_add. destruct e; auto. now apply NoDup_remove_handler. }
  auto.
Qed.
Lemma configure_all_NoDup g cs : NoDup (lg_handlers g) -> NoDup (lg_handlers (configure_all g cs)).
Proof. revert g. induction cs as [|c cs IH]; intros g D; [exact D|]. apply IH. now apply configure_NoDup. Qed.

Lemma configure_all_level g cs x : latest level_arg cs x ->
  lg_level (configure_all g cs) = match x with Some z => z | None => lg_level g end.
Proof.
  revert x. induction cs as [|c cs IH] using rev_ind; intros x L.
  - destruct x as [h|]; [destruct L as (pre & ? & ? & E & _); destruct pre; discriminate|]. reflexivity.
  - rewrite configure_all_snoc. apply latest_snoc in L. unfold configure. destruct (find_existing _). cbn [lg_level].
    unfold level_arg in L at 1. destruct (c_level c) as [z|]; [|now apply IH].
    destruct z; cbn [Z.eqb]; try (subst x; reflexivity). now apply IH.
Qed.
