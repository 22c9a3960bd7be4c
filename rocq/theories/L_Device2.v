(** Lemmas about per-sample evaluation, truncation, measurement of degraded and
    circuit parameters, and time units. *)
From Coq Require Import QArith.
From Verif Require Import M_Base M_Num M_Nd M_RandVar M_Latent M_Time M_Minimize M_Device S_Device L_Base L_Nd L_Device.
Open Scope nat_scope.

(** Induction on values with dictionaries. *)
Section Ind.
Context {V : Type} (P : pyval V -> Prop).
Hypothesis Hn : forall v, P (PNum v).
Hypothesis Ho : forall v, P (POth v).
Hypothesis Ha : forall a, P (PArr a).
Hypothesis Hd : forall d, (forall k v, In (k, v) d -> P v) -> P (PDict d).
Fixpoint pyval_ind' (p : pyval V) : P p :=
  match p with
  | PNum v => Hn v
  | POth v => Ho v
  | PArr a => Ha a
  | PDict d => Hd d ((fix go (d : list (string * pyval V)) : forall k v, In (k, v) d -> P v :=
      match d with
      | [] => fun k v F => match F with end
      | (k0, v0) :: r => fun k v I =>
          match I with
          | or_introl e => eq_ind v0 P (pyval_ind' v0) v (f_equal snd e)
          | or_intror I' => go r k v I'
          end
      end) d)
  end.
End Ind.

Section L.
Context {V : Type} `{NumOps V}.
Implicit Types (f : eqn V) (args conds lats : dict (pyval V)) (m : mech V).

(** ** Per-sample evaluation *)
Lemma nth_error_skipn {A} (l : list A) n i : nth_error (skipn n l) i = nth_error l (n + i).
Proof.
  revert l. induction n as [|n IH]; intros l; cbn [skipn Nat.add]; auto.
  destruct l; cbn [skipn nth_error]; auto. now destruct i.
Qed.

Lemma nth_error_firstn {A} (l : list A) n i : i < n -> nth_error (firstn n l) i = nth_error l i.
Proof.
  revert l i. induction n as [|n IH]; intros l i Hi; [lia|]. destruct l; auto.
  destruct i; cbn [firstn nth_error]; auto. apply IH. lia.
Qed.

Lemma nsub3 (a : nd V) n1 n2 n3 i j k v : nshape a = [n1; n2; n3] -> i < n1 -> j < n2 -> k < n3 ->
  nth_error (ndata a) ((i * n2 + j) * n3 + k) = Some v ->
  rbind (nsub1 a i) (fun b => rbind (nsub1 b j) (fun c => rbind (nsub1 c k) (fun e => Ok (Some (of_nd e)))))
  = Ok (Some (PNum v)).
Proof.
  intros S Hi Hj Hk E. unfold nsub1 at 1. rewrite S. destruct (Nat.ltb_spec i n1); [|lia]. cbn [rbind].
  unfold nsub1 at 1. cbn [nshape]. destruct (Nat.ltb_spec j n2); [|lia]. cbn [rbind].
  unfold nsub1 at 1. cbn [nshape]. destruct (Nat.ltb_spec k n3); [|lia]. cbn [rbind ndata].
  set (dat := ndata a) in *. cbn [prod fold_right].
  set (l3 := firstn _ _).
  assert (G : nth_error l3 0 = Some v).
  { unfold l3. rewrite nth_error_firstn by lia. rewrite nth_error_skipn, nth_error_firstn by nia.
    rewrite nth_error_skipn, nth_error_firstn by nia. rewrite nth_error_skipn, <- E. f_equal. nia. }
  assert (Ln : length l3 <= 1) by (unfold l3; rewrite firstn_length; lia).
  destruct l3 as [|x [|y r]]; cbn in G, Ln; try lia; [discriminate|]. injection G as <-. reflexivity.
Qed.

Scheme picks_mut := Induction for picks Sort Prop
  with picks_all_mut := Induction for picks_all Sort Prop.

Lemma picks_single_all i j k (d d' : dict (pyval V)) : picks_all i j k d d' -> single_index i j k d = Ok d'.
Proof.
  revert d d'. apply (picks_all_mut V i j k
    (fun p o _ => single_val i j k p = Ok o) (fun d d' _ => single_index i j k d = Ok d')); cbn; auto.
  - intros. eapply nsub3; eauto.
  - intros d d' _ IH. enough (E : forall e, single_index i j k d = e ->
      (fix go (d : list (string * pyval V)) : res (list (string * pyval V)) :=
                match d with
                | [] => Ok []
                | (key, v) :: r =>
                    rbind (single_val i j k v) (fun o =>
                    rbind (go r) (fun r' =>
                    Ok (match o with Some x => (key, x) :: r' | None => r' end)))
                end) d = e) by (now rewrite (E _ IH)).
    clear. induction d as [|[key v] r IHr]; cbn; auto. intros e <-. destruct (single_val i j k v); cbn; auto.
    now rewrite (IHr _ eq_refl).
  - intros key v x d d' _ E1 _ E2. rewrite E1, E2. reflexivity.
  - intros key v d d' _ E1 _ E2. rewrite E1, E2. reflexivity.
Qed.

Lemma sized_picks L C D i j k : i < L -> j < C -> k < D -> forall p : pyval V, sized L C D p -> exists o, picks i j k p o.
Proof.
  intros Hi Hj Hk. apply (pyval_ind' (fun p => sized L C D p -> exists o, picks i j k p o)).
  - eauto using pk_num.
  - eauto using pk_oth.
  - intros a Sz. inversion Sz as [| |? n1 n2 n3 Sh Ln L1 L2 L3|]; subst.
    destruct (nth_error (ndata a) ((i * n2 + j) * n3 + k)) as [v|] eqn:E.
    + exists (Some (PNum v)). eapply pk_elem; eauto; lia.
    + apply nth_error_None in E. assert (i * n2 + j + 1 <= n1 * n2) by nia. assert ((i * n2 + j + 1) * n3 <= n1 * n2 * n3) by (apply Nat.mul_le_mono_r; auto). lia.
  - intros d IH Sz. inversion Sz as [| | |? Sd]; subst. clear Sz.
    enough (exists d', picks_all i j k d d') as [d' G] by (exists (Some (PDict d')); now constructor).
    induction d as [|[key v] r IHr]; [exists []; constructor|].
    destruct IHr as [r' Gr]; [intros k0 v0 I; exact (IH k0 v0 (or_intror I))|intros k0 v0 I; exact (Sd k0 v0 (or_intror I))|].
    destruct (IH key v ltac:(now left) (Sd key v ltac:(now left))) as [[x|] G].
    + exists ((key, x) :: r'). now constructor.
    + exists r'. now constructor.
Qed.

Lemma sized_picks_all L C D i j k (d : dict (pyval V)) : i < L -> j < C -> k < D -> sized L C D (PDict d) -> exists d', picks_all i j k d d'.
Proof.
  intros Hi Hj Hk Sz. destruct (sized_picks L C D i j k Hi Hj Hk _ Sz) as [o G]. inversion G; subst. eauto.
Qed.

Lemma indices_samples L C D : indices [L; C; D] = map (fun t : nat * nat * nat => let '(i, j, k) := t in [i; j; k]) (samples L C D).
Proof.
  unfold samples. cbn [indices].
  assert (G : forall {A B E} (g : B -> E) (h : A -> list B) l, map g (flat_map h l) = flat_map (fun x => map g (h x)) l).
  { intros A B E g h l. induction l as [|x r IH]; cbn; auto. now rewrite map_app, IH. }
  rewrite G. apply flat_map_ext. intros i. rewrite !G. apply flat_map_ext. intros j. rewrite !map_map.
  rewrite G. cbn [map]. induction (seq 0 D) as [|x r IH]; cbn; auto.
Qed.

Lemma In_samples L C D i j k : In (i, j, k) (samples L C D) <-> i < L /\ j < C /\ k < D.
Proof.
  unfold samples. rewrite in_flat_map. split.
  - intros (x & Hx & Hin). apply in_flat_map in Hin as (y & Hy & Hin). apply in_map_iff in Hin as (z & Q & Hz).
    apply in_seq in Hx, Hy, Hz. injection Q as <- <- <-. lia.
  - intros (Hi & Hj & Hk). exists i. split; [apply in_seq; lia|]. apply in_flat_map. exists j. split; [apply in_seq; lia|].
    apply in_map_iff. exists k. split; auto. apply in_seq. lia.
Qed.

Lemma to_scalar_spec (v : pyval V) x : to_scalar v = Ok x <-> (v = PNum x \/ v = POth x \/ exists s, v = PArr (Nd s [x])).
Proof.
  destruct v as [y|y|[s dat]|d]; cbn.
  - split; [intros Q; injection Q as ->; auto|]. intros [Q|[Q|[s Q]]]; congruence.
  - split; [intros Q; injection Q as ->; auto|]. intros [Q|[Q|[s Q]]]; congruence.
  - split.
    + destruct dat as [|y [|]]; try discriminate. intros Q. injection Q as ->. eauto.
    + intros [Q|[Q|[t Q]]]; try discriminate. now injection Q as -> ->.
  - split; [discriminate|]. intros [Q|[Q|[s Q]]]; discriminate.
Qed.

Lemma loop_samples f args L C D l w vs w' : sized L C D (PDict args) ->
  (forall i j k, In (i, j, k) l -> i < L /\ j < C /\ k < D) ->
  mapM (loop_elem f args) (map (fun t : nat * nat * nat => let '(i, j, k) := t in [i; j; k]) l) w = (Ok vs, w')
  <-> called_per_sample f args l w vs w'.
Proof.
  intros Sz. revert w vs w'. induction l as [|[[i j] k] r IH]; intros w vs w' Hin; cbn [map mapM].
  - split.
    + intros E. apply ret_ok in E as [-> ->]. constructor.
    + intros G. inversion G; subst. reflexivity.
  - assert (Hin' : forall i j k, In (i, j, k) r -> i < L /\ j < C /\ k < D) by (intros; apply Hin; now right).
    destruct (Hin i j k ltac:(now left)) as (Hi & Hj & Hk).
    destruct (sized_picks_all L C D i j k args Hi Hj Hk Sz) as [a Ga].
    assert (Ea := picks_single_all _ _ _ _ _ Ga).
    split.
    + intros E. mstep E. mstep E. apply ret_ok in E as [-> ->]. unfold loop_elem in E0.
      mstep E0. rewrite Ea in E. injection E as <-. mstep E0. apply lift_ok in E0 as [E0 ->].
      apply to_scalar_spec in E0. apply IH in E1; auto. econstructor; eauto.
    + intros G. inversion G as [|? ? ? ? ? a' v x w1 vs' ? Ga' Ec Ev Gr]; subst.
      apply picks_single_all in Ga'. assert (a' = a) by congruence. subst a'.
      eapply bind_eval in Ec as Eb. erewrite bind_eval.
      2:{ unfold loop_elem. rewrite Ea. unfold bind at 1, lift at 1. rewrite Eb. apply to_scalar_spec in Ev. rewrite Ev. reflexivity. }
      apply IH in Gr; auto. erewrite bind_eval by exact Gr. reflexivity.
Qed.

Lemma loop_spec f args L C D w r w' : sized L C D (PDict args) ->
  loop_compute f args L C D w = (Ok r, w') <->
  exists vs, called_per_sample f args (samples L C D) w vs w' /\ r = PArr (Nd [L; C; D] vs).
Proof.
  intros Sz. unfold loop_compute. rewrite indices_samples.
  assert (In3 : forall i j k, In (i, j, k) (samples L C D) -> i < L /\ j < C /\ k < D) by (intros; now apply In_samples).
  split.
  - intros E. mstep E. apply ret_ok in E as [-> ->]. exists a. split; auto. now apply (loop_samples f args L C D).
  - intros (vs & G & ->). apply (loop_samples f args L C D) in G; auto. erewrite bind_eval by exact G. reflexivity.
Qed.

Lemma per_sample_values f args L C D a l w : acts_per_sample f args L C D a -> sized L C D (PDict args) ->
  (forall i j k, In (i, j, k) l -> i < L /\ j < C /\ k < D) ->
  exists vs, called_per_sample f args l w vs w /\
    map Some vs = map (fun t : nat * nat * nat => let '(i, j, k) := t in nth_error (ndata a) ((i * C + j) * D + k)) l.
Proof.
  intros (_ & _ & A) Sz. induction l as [|[[i j] k] r IH]; intros Hin.
  - exists []. split; [constructor|reflexivity].
  - destruct IH as (vs & G & Ev); [intros; apply Hin; now right|]. destruct (Hin i j k ltac:(now left)) as (Hi & Hj & Hk).
    destruct (sized_picks_all L C D i j k args Hi Hj Hk Sz) as [a' Ga].
    destruct (A i j k a' w Hi Hj Hk Ga) as (v & Ec & En).
    exists (v :: vs). split; [econstructor; eauto|]. cbn [map]. now rewrite Ev, En.
Qed.

Lemma loop_same f args L C D a w : acts_per_sample f args L C D a -> sized L C D (PDict args) ->
  loop_compute f args L C D w = (Ok (PArr a), w).
Proof.
  intros A Sz. apply loop_spec; auto.
  destruct (per_sample_values f args L C D a (samples L C D) w A Sz) as (vs & G & Ev); [intros; now apply In_samples|].
  exists vs. split; auto. destruct A as (Sh & Ln & _). destruct a as [s dat]. cbn [nshape ndata] in *. subst s. do 2 f_equal.
  assert (Wf : awf (Nd [L; C; D] dat)) by (unfold awf; cbn; lia).
  assert (B : map (aget (Nd [L; C; D] dat)) (indices [L; C; D]) = dat).
  { change dat with (ndata (Nd [L; C; D] dat)) at 2. rewrite <- (nbuild_aget _ Wf) at 2. reflexivity. }
  rewrite indices_samples, map_map in B.
  enough (Q : map Some (map (fun t : nat * nat * nat => aget (Nd [L; C; D] dat) (let '(i, j, k) := t in [i; j; k])) (samples L C D)) = map Some vs).
  { rewrite <- B at 1. revert Q. generalize vs. generalize (map (fun t : nat * nat * nat => aget (Nd [L; C; D] dat) (let '(i, j, k) := t in [i; j; k])) (samples L C D)).
    clear. intros l. induction l as [|x r IH]; intros [|y l2] Q; cbn in Q; try discriminate; auto. injection Q as -> Q. f_equal; auto. }
  rewrite Ev, map_map. apply map_ext_in. intros [[i j] k] Hin. apply In_samples in Hin as (Hi & Hj & Hk).
  assert (Hv : valid [L; C; D] [i; j; k]) by (apply valid3; auto).
  assert (E := ndata_aget (Nd [L; C; D] dat) [i; j; k] Wf Hv). cbn [nshape ndata flat] in E. rewrite <- E.
  f_equal. cbn [prod fold_right]. nia.
Qed.

(** ** Truncation *)
Lemma flat3 C D l c d : l * (C * (D * 1)) + (c * (D * 1) + (d * 1 + 0)) = (l * C + c) * D + d.
Proof. nia. Qed.

Lemma cut_slice K (a b : nd V) L C D : nshape a = [L; C; D] -> nshape b = [L; C; K] -> K <= D ->
  length (ndata a) = L * C * D -> length (ndata b) = L * C * K ->
  (forall l c d, l < L -> c < C -> d < K ->
     nth_error (ndata b) ((l * C + c) * K + d) = nth_error (ndata a) ((l * C + c) * D + d)) ->
  nslice_third K a = Ok b.
Proof.
  intros Sa Sb Hk La Lb G. unfold nslice_third. rewrite Sa. rewrite Nat.min_l by lia. f_equal.
  assert (Wa : awf a) by (unfold awf; rewrite Sa; cbn; lia).
  assert (Wb : awf b) by (unfold awf; rewrite Sb; cbn; lia).
  apply nd_ext; auto using awf_nbuild.
  cbn [nshape nbuild]. intros idx Hv. rewrite aget_nbuild by auto.
  apply valid3_inv in Hv as (l & c & d & -> & Hl & Hc & Hd).
  assert (E1 := ndata_aget a [l; c; d] Wa ltac:(rewrite Sa; apply valid3; lia)).
  assert (E2 := ndata_aget b [l; c; d] Wb ltac:(rewrite Sb; apply valid3; lia)).
  rewrite Sa in E1. rewrite Sb in E2. cbn [flat prod fold_right] in E1, E2. rewrite flat3 in E1, E2.
  rewrite G in E2 by auto. congruence.
Qed.

Scheme cut_mut := Induction for cut Sort Prop
  with cut_all_mut := Induction for cut_all Sort Prop.

Lemma cut_reduce K (d d' : dict (pyval V)) : cut_all K d d' -> reduce_dims K d = Ok d'.
Proof.
  revert d d'. apply (cut_all_mut V K
    (fun p q _ => reduce_val K p = Ok (Some q)) (fun d d' _ => reduce_dims K d = Ok d')); cbn; auto.
  - intros. erewrite cut_slice; eauto. reflexivity.
  - intros d d' _ IH. enough (E : (fix go (d : list (string * pyval V)) : res (list (string * pyval V)) :=
                match d with
                | [] => Ok []
                | (key, v) :: r =>
                    rbind (reduce_val K v) (fun o =>
                    rbind (go r) (fun r' =>
                    Ok (match o with Some x => (key, x) :: r' | None => r' end)))
                end) d = reduce_dims K d) by (rewrite E, IH; reflexivity).
    clear. induction d as [|[key v] r IHr]; cbn; auto. destruct (reduce_val K v); cbn; auto. now rewrite IHr.
  - intros key v x d d' _ E1 _ E2. rewrite E1, E2. reflexivity.
Qed.

Lemma cond_shifted_cut p conds a a' lats lats' L C D K w :
  nth_error (nshape a) 2 = Some D -> K < D ->
  cut K (PArr a) (PArr a') -> cut_all K lats lats' ->
  cond_shifted p conds (PArr a) lats L C K w = cond_shifted p conds (PArr a') lats' L C K w.
Proof.
  intros Hd Hlt Ca Cl. inversion Ca as [x y L0 C0 D0 Sa Sb Hk La Lb G|]; subst.
  rewrite Sa in Hd. injection Hd as ->.
  assert (Ea : reduce_dims K [("init"%string, PArr a); ("cond"%string, PDict [])] = Ok [("init"%string, PArr a'); ("cond"%string, PDict [])]).
  { apply cut_reduce. repeat constructor. exact Ca. }
  unfold cond_shifted.
  erewrite (bind_eval (lift (third_dim (PArr a)))) by (unfold third_dim; rewrite Sa; reflexivity).
  erewrite (bind_eval (lift (third_dim (PArr a')))) by (unfold third_dim; rewrite Sb; reflexivity).
  rewrite (proj2 (Nat.ltb_lt K D)) by lia. rewrite Nat.ltb_irrefl, Ea, (cut_reduce _ _ _ Cl). reflexivity.
Qed.
End L.
