(** Lemmas about the base notions. *)
From Verif Require Import M_Base.
From Coq Require Import Permutation.

Section Dict.
Context {A : Type}.
Implicit Types d : dict A.

Lemma dget_dset_eq d k a : dget (dset d k a) k = Some a.
Proof.
  induction d as [|[k' a'] r IH]; cbn [dset dget].
  - now rewrite String.eqb_refl.
  - destruct (String.eqb k k') eqn:E; cbn [dget]; rewrite ?String.eqb_refl, ?E; auto.
Qed.

Lemma dget_dset_neq d k k' a : k <> k' -> dget (dset d k a) k' = dget d k'.
Proof.
  intros Hn. induction d as [|[k2 a2] r IH]; cbn [dset dget].
  - destruct (String.eqb k' k) eqn:E; auto. apply String.eqb_eq in E. congruence.
  - destruct (String.eqb k k2) eqn:E; cbn [dget].
    + apply String.eqb_eq in E; subst k2.
      destruct (String.eqb k' k) eqn:E2; auto. apply String.eqb_eq in E2. congruence.
    + destruct (String.eqb k' k2); auto.
Qed.

Lemma dget_dset d k k' a :
  dget (dset d k a) k' = if String.eqb k k' then Some a else dget d k'.
Proof.
  destruct (String.eqb_spec k k') as [->|Hn]; [apply dget_dset_eq|now apply dget_dset_neq].
Qed.

Lemma dmem_dset d k k' a : dmem (dset d k a) k' = String.eqb k k' || dmem d k'.
Proof. unfold dmem. rewrite dget_dset. destruct (String.eqb k k'); auto. Qed.

Lemma dget_In d k a : dget d k = Some a -> In (k, a) d.
Proof.
  induction d as [|[k' a'] r IH]; cbn [dget]; [discriminate|].
  destruct (String.eqb_spec k k') as [->|Hn]; intros H.
  - inversion H; subst. now left.
  - right; auto.
Qed.

Lemma dget_None_keys d k : dget d k = None <-> ~ In k (dkeys d).
Proof.
  induction d as [|[k' a'] r IH]; cbn [dget dkeys map fst In]; [split; auto|].
  destruct (String.eqb_spec k k') as [->|Hn]; split; intros H.
  - discriminate.
  - destruct H; now left.
  - intros [->|Hin]; [congruence|]. now apply IH in H.
  - apply IH. intros Hin. apply H. now right.
Qed.

Lemma dmem_keys d k : dmem d k = true <-> In k (dkeys d).
Proof.
  unfold dmem. destruct (dget d k) eqn:E.
  - split; auto. intros _. apply dget_In in E. apply in_map_iff. now exists (k, a).
  - split; [discriminate|]. intros H. apply dget_None_keys in E. contradiction.
Qed.

Lemma dmem_keys_false d k : dmem d k = false <-> ~ In k (dkeys d).
Proof.
  rewrite <- dmem_keys. destruct (dmem d k); split; congruence.
Qed.

Lemma dmem_Some d k : dmem d k = true -> exists a, dget d k = Some a.
Proof. unfold dmem. destruct (dget d k); [eauto|discriminate]. Qed.

Lemma dget_wf_In d k a : dwf d -> In (k, a) d -> dget d k = Some a.
Proof.
  unfold dwf. induction d as [|[k' a'] r IH]; cbn; [tauto|].
  intros Hnd Hin. inversion Hnd as [|? ? Hni Hnd']; subst.
  destruct (String.eqb_spec k k') as [->|Hn].
  - destruct Hin as [H|H]; [congruence|].
    destruct Hni. apply in_map_iff. now exists (k', a).
  - destruct Hin as [H|H]; [congruence|auto].
Qed.

Lemma dkeys_dset d k a :
  dkeys (dset d k a) = if dmem d k then dkeys d else dkeys d ++ [k].
Proof.
  induction d as [|[k' a'] r IH]; cbn [dset dkeys map fst dmem dget app]; auto.
  unfold dmem in *. cbn [dget]. destruct (String.eqb_spec k k') as [->|Hn]; cbn [map fst]; auto.
  unfold dkeys in IH. rewrite IH. destruct (dget r k); auto.
Qed.

Lemma dwf_dset d k a : dwf d -> dwf (dset d k a).
Proof.
  unfold dwf. intros H. rewrite dkeys_dset. destruct (dmem d k) eqn:E; auto.
  apply dmem_keys_false in E.
  apply (Permutation_NoDup (l := k :: dkeys d)).
  - apply Permutation_cons_append.
  - constructor; auto.
Qed.

Lemma dwf_dupdate d e : dwf d -> dwf (dupdate d e).
Proof.
  unfold dupdate. revert d. induction e as [|[k a] r IH]; cbn [fold_left]; auto.
  intros d H. apply IH. now apply dwf_dset.
Qed.

Lemma dset_app_new d k a : ~ In k (dkeys d) -> dset d k a = d ++ [(k, a)].
Proof.
  induction d as [|[k' a'] r IH]; cbn [dset dkeys map fst In app]; auto.
  intros H. destruct (String.eqb_spec k k') as [->|Hn].
  - destruct H; now left.
  - f_equal. apply IH. tauto.
Qed.

Lemma dget_dupdate d e k :
  dwf e -> dget (dupdate d e) k = match dget e k with Some a => Some a | None => dget d k end.
Proof.
  unfold dupdate. revert d. induction e as [|[k' a'] r IH]; cbn [fold_left dget fst snd]; auto.
  intros d Hwf. inversion Hwf as [|? ? Hni Hnd]; subst. rewrite (IH _ Hnd), dget_dset.
  destruct (String.eqb_spec k' k) as [->|Hn].
  - rewrite String.eqb_refl. destruct (dget r k) eqn:E; auto.
    apply dget_In in E. destruct Hni. apply in_map_iff. now exists (k, a).
  - destruct (String.eqb_spec k k') as [->|_]; [congruence|]. auto.
Qed.

Lemma dget_dupdate_other d e k :
  ~ In k (dkeys e) -> dget (dupdate d e) k = dget d k.
Proof.
  unfold dupdate. revert d. induction e as [|[k' a'] r IH]; cbn [fold_left dkeys map fst snd In]; auto.
  intros d H. unfold dkeys in IH. rewrite IH by tauto. apply dget_dset_neq. tauto.
Qed.
End Dict.

Lemma dget_map {A B} (f : A -> B) (d : dict A) k :
  dget (map (fun kv => (fst kv, f (snd kv))) d) k = option_map f (dget d k).
Proof.
  induction d as [|[k' a'] r IH]; cbn; auto. destruct (String.eqb k k'); auto.
Qed.

Lemma smem_In k l : smem k l = true <-> In k l.
Proof.
  unfold smem. rewrite existsb_exists. split.
  - intros [x [Hin He]]. apply String.eqb_eq in He. now subst.
  - intros H. exists k. split; auto. apply String.eqb_refl.
Qed.

Lemma smem_false k l : smem k l = false <-> ~ In k l.
Proof. rewrite <- smem_In. destruct (smem k l); split; congruence. Qed.

(** Monad inversion *)
Lemma bind_ok {A B} (m : M A) (f : A -> M B) w b w' :
  bind m f w = (Ok b, w') -> exists a w1, m w = (Ok a, w1) /\ f a w1 = (Ok b, w').
Proof.
  unfold bind. destruct (m w) as [[a|e] w1]; [eauto|discriminate].
Qed.

Lemma bind_eval {A B} (m : M A) (f : A -> M B) w a w1 :
  m w = (Ok a, w1) -> bind m f w = f a w1.
Proof. unfold bind. now intros ->. Qed.

Lemma bind_eval_err {A B} (m : M A) (f : A -> M B) w e w1 :
  m w = (Err e, w1) -> bind m f w = (Err e, w1).
Proof. unfold bind. now intros ->. Qed.

Lemma bind_ret_l {A B} (a : A) (f : A -> M B) w : bind (ret a) f w = f a w.
Proof. reflexivity. Qed.

Lemma bind_lift_ok {A B} (r : res A) (f : A -> M B) w b w' :
  bind (lift r) f w = (Ok b, w') -> exists a, r = Ok a /\ f a w = (Ok b, w').
Proof. unfold bind, lift. destruct r; [eauto|discriminate]. Qed.

Lemma foldM_app {A S} (f : S -> A -> M S) l1 l2 s w :
  foldM f (l1 ++ l2) s w = bind (foldM f l1 s) (fun s' => foldM f l2 s') w.
Proof.
  revert s w. induction l1 as [|x r IH]; intros s w; cbn [foldM app]; auto.
  unfold bind at 1 2 3. destruct (f s x w) as [[s'|e] w1]; auto.
  rewrite IH. reflexivity.
Qed.

Lemma foldM_inv {A S} (P : S -> Prop) (f : S -> A -> M S) l s w s' w' :
  (forall s x w s' w', In x l -> P s -> f s x w = (Ok s', w') -> P s') ->
  P s -> foldM f l s w = (Ok s', w') -> P s'.
Proof.
  revert s w. induction l as [|x r IH]; intros s w Hstep Hs H; cbn [foldM] in H.
  - inversion H; subst; auto.
  - apply bind_ok in H as (s1 & w1 & H1 & H2).
    apply IH in H2; auto.
    + intros; eapply Hstep; eauto. now right.
    + eapply Hstep; eauto. now left.
Qed.

Lemma mapM_length {A B} (f : A -> M B) l w ys w' :
  mapM f l w = (Ok ys, w') -> length ys = length l.
Proof.
  revert w ys w'. induction l as [|x r IH]; intros w ys w' H; cbn [mapM] in H.
  - inversion H; auto.
  - apply bind_ok in H as (y & w1 & H1 & H2).
    apply bind_ok in H2 as (ys' & w2 & H3 & H4). inversion H4; subst. cbn. f_equal. eauto.
Qed.
