(** Proofs about layered stochastic variables. *)
From Verif Require Import M_Base L_Base M_Num M_Nd L_Nd M_RandVar M_Latent S_Latent.
Open Scope nat_scope.

Section Sampling.
Context {V : Type} `{NumOps V} `{Rng V}.

Lemma draws_spec p n s xs s' : draws p n s = (xs, s') ->
  length xs = n /\ s' = state_after p n s /\
  forall i, i < n -> nth_error xs i = Some (fst (rdraw p (state_after p i s))).
Proof.
  revert s xs s'. induction n as [|n IH]; intros s xs s' E; cbn [draws] in E.
  - inversion E; subst. repeat split; auto; lia.
  - destruct (rdraw p s) as [x s1] eqn:E1. destruct (draws p n s1) as [ys s2] eqn:E2.
    inversion E; subst. destruct (IH _ _ _ E2) as (Hl & Hs & Hi). cbn [length].
    assert (Hshift : forall k, state_after p k s1 = state_after p (S k) s).
    { intros k. cbn [state_after]. now rewrite E1. }
    repeat split; auto.
    + rewrite Hs. apply Hshift.
    + intros i Hi'. destruct i as [|i]; cbn [nth_error].
      * unfold state_after. cbn. now rewrite E1.
      * rewrite Hi by lia. now rewrite Hshift.
Qed.

Lemma sample_reads r n w xs w' : sample r n w = (Ok xs, w') -> reads r n w xs w'.
Proof.
  unfold sample, reads. destruct (rv_dist r) as [v|mu sg|al be|st sp] eqn:Ed.
  { intros E. inversion E; subst. rewrite repeat_length. repeat split; auto.
    intros x. apply repeat_spec. }
  all: intros E; match type of E with context [params_numpy ?d] => destruct (params_numpy d) as [p|e] eqn:Ep end;
    [|discriminate]; destruct (rvalid p) eqn:Ev; [|discriminate];
    destruct (draws p n (w (rv_gen r))) as [ys s] eqn:Edr; inversion E; subst;
    destruct (draws_spec _ _ _ _ _ Edr) as (Hl & Hs & Hi); split; auto; exists p; repeat split; auto;
    intros g; unfold wset; destruct (g =? rv_gen r); auto.
Qed.

Lemma sample_length r n w xs w' : sample r n w = (Ok xs, w') -> length xs = n.
Proof. intros E. apply sample_reads in E. apply E. Qed.

(** The name of a random variable does not influence its samples. *)
Lemma sample_rename r s n w : sample (rename r s) n w = sample r n w.
Proof. reflexivity. Qed.

Lemma state_after_add p n m s : state_after p (n + m) s = state_after p m (state_after p n s).
Proof. revert s. induction n as [|n IH]; intros s; cbn [Nat.add state_after]; auto. Qed.

(** Successive samples of one variable are one longer sample. *)
Lemma reads_app r n m w xs w1 ys w2 :
  reads r n w xs w1 -> reads r m w1 ys w2 -> reads r (n + m) w (xs ++ ys) w2.
Proof.
  unfold reads. intros [Hl Hx] [Hl' Hy]. rewrite app_length. split; [lia|].
  destruct (rv_dist r) as [v|mu sg|al be|st sp].
  { destruct Hx as [Hx Hw], Hy as [Hy Hw']. split.
    - intros x [Hin|Hin]%in_app_iff; auto.
    - intros g. now rewrite Hw', Hw. }
  all: destruct Hx as (p & Hp & Hv & Hi & Hw), Hy as (p' & Hp' & Hv' & Hi' & Hw').
  all: rewrite Hp in Hp'; inversion Hp'; subst p'; exists p; split; [|split; [|split]]; auto.
  all: assert (E : w1 (rv_gen r) = state_after p n (w (rv_gen r))) by (rewrite Hw, Nat.eqb_refl; reflexivity).
  1,3,5: intros i Hlt; destruct (Nat.lt_ge_cases i n) as [Hin|Hin];
    [rewrite nth_error_app1 by lia; auto
    |rewrite nth_error_app2 by lia; rewrite Hi' by lia; rewrite E, <- state_after_add; do 4 f_equal; lia].
  all: intros g; rewrite Hw'; destruct (g =? rv_gen r) eqn:Eg; [rewrite E; symmetry; apply state_after_add|].
  all: rewrite Hw, Eg; reflexivity.
Qed.

Lemma reads_nil r w : (exists n xs w1, sample r n w = (Ok xs, w1)) -> reads r 0 w [] w.
Proof.
  intros (n & xs & w1 & E). apply sample_reads in E. unfold reads in *. split; auto.
  destruct E as [_ E]. destruct (rv_dist r); [split; auto; contradiction|..];
    destruct E as (p & Hp & Hv & _); exists p; repeat split; auto; try lia;
    intros g; destruct (Nat.eqb_spec g (rv_gen r)); subst; reflexivity.
Qed.
End Sampling.

Section Layers.
Context {V : Type} `{NumOps V} `{Rng V}.

(** Internal form of a layer: what is stored. *)
Definition stored (t : vtype) (r : rv V) (f : bool) (given : option (rv V)) : Prop :=
  match given with
  | Some x => f = true /\ rv_gen r = rv_gen x /\ rv_dist r = rv_dist x
  | None => f = false /\ rv_dist r = DDeter (unit_of t)
  end.

Lemma stored_behaves t r f g : stored t r f g ->
  behaves t r g /\ f = match g with Some _ => true | None => false end.
Proof.
  unfold stored, behaves. destruct g as [x|].
  - intros (Hf & Hg & Hd). split; auto. intros n w. unfold sample. now rewrite Hd, Hg.
  - intros (Hf & Hd). split; auto. intros n w. unfold sample. rewrite Hd. destruct t; reflexivity.
Qed.

Lemma stored_layer t u given : u = unit_of t ->
  stored t (fst (layer u given)) (snd (layer u given)) given.
Proof. intros ->. destruct given as [x|]; cbn; auto. Qed.

Lemma stored_rename t r (f : bool) g (s : string) : stored t r f g ->
  stored t (if f then rename r s else r) f g.
Proof. destruct g; cbn; intros [-> Hd]; cbn; auto. Qed.

Lemma stored_retype t t' r f g : f = true -> stored t r f g -> stored t' r f g.
Proof. intros ->. destruct g; cbn; auto. intros [E _]. discriminate. Qed.

Lemma stored_given t t' u r (f : bool) g : u = unit_of t' -> stored t r f g ->
  stored t' (if f then r else Rv 0 (DDeter u) None) f g.
Proof. intros ->. destruct g; cbn; intros [-> Hd]; cbn; auto. Qed.

Lemma vtype_of_name t : vtype_of (type_name t) = Some t.
Proof. destruct t; reflexivity. Qed.

Lemma vtype_of_bad x : (forall t, x <> type_name t) -> vtype_of x = None.
Proof.
  intros Hx. unfold vtype_of. destruct (String.eqb_spec x "scaling") as [->|].
  - destruct (Hx Scaling); reflexivity.
  - destruct (String.eqb_spec x "offset") as [->|]; auto. destruct (Hx Offset); reflexivity.
Qed.

Lemma vtype_of_Some x t : vtype_of x = Some t -> x = type_name t.
Proof.
  unfold vtype_of. destruct (String.eqb_spec x "scaling") as [->|].
  - intros E; inversion E; reflexivity.
  - destruct (String.eqb_spec x "offset") as [->|]; intros E; inversion E; reflexivity.
Qed.

(** Representation invariant of a LatentVar. *)
Definition lv_rep (o : lvar V) (s : told V) : Prop :=
  lv_type o = Some (t_type s) /\ lv_op o = Some (t_type s) /\ lv_unit o = unit_of (t_type s) /\
  lv_deter o = t_deter s /\
  stored (t_type s) (lv_dev o) (lv_devf o) (t_dev s) /\
  stored (t_type s) (lv_chp o) (lv_chpf o) (t_chp s) /\
  stored (t_type s) (lv_lot o) (lv_lotf o) (t_lot s).

Lemma lv_rep_shows o s : lv_rep o s -> lvar_shows o s.
Proof.
  intros (Ht & Ho & Hu & Hde & Hd & Hc & Hl). apply stored_behaves in Hd as [Hd Hdf], Hc as [Hc Hcf], Hl as [Hl Hlf].
  unfold lvar_shows. repeat split; auto. exists (t_type s). split; auto. intros x y. destruct (t_type s); reflexivity.
Qed.

Lemma set_type_rep o s t x : vtype_of x = Some t ->
  (lv_rep o s \/ (lv_type o = None /\ lv_deter o = t_deter s /\ exists t0,
     stored t0 (lv_dev o) (lv_devf o) (t_dev s) /\ stored t0 (lv_chp o) (lv_chpf o) (t_chp s) /\
     stored t0 (lv_lot o) (lv_lotf o) (t_lot s))) ->
  exists o', set_type o x = Ok o' /\ lv_rep o' (Told t (t_deter s) (t_dev s) (t_chp s) (t_lot s)).
Proof.
  intros Hx Ho. unfold set_type. rewrite Hx.
  set (changed := match lv_type o with None => true | Some t' => negb (vtype_eqb t' t) end).
  destruct changed eqn:Ec.
  - assert (Hs : lv_deter o = t_deter s /\ exists t0,
     stored t0 (lv_dev o) (lv_devf o) (t_dev s) /\ stored t0 (lv_chp o) (lv_chpf o) (t_chp s) /\
     stored t0 (lv_lot o) (lv_lotf o) (t_lot s)).
    { destruct Ho as [(_ & _ & _ & Hde & Hd & Hc & Hl)|(_ & Hde & t0 & Hd & Hc & Hl)]; eauto 8. }
    destruct Hs as (Hde & t0 & Hd & Hc & Hl).
    apply (stored_given t0 t _ _ _ _ eq_refl) in Hd, Hc, Hl.
    destruct o as [nm ty de un op dv df cp cf lo lf]; cbn in *.
    destruct lf; cbn in *; destruct cf; cbn in *; destruct df; cbn in *; eexists; (split; [reflexivity|]);
      unfold lv_rep; cbn; repeat split; auto.
  - destruct Ho as [Hr|(E & _)]; [|unfold changed in Ec; rewrite E in Ec; discriminate].
    destruct Hr as (Ht & Hop & Hu & Hde & Hd & Hc & Hl). unfold changed in Ec. rewrite Ht in Ec.
    assert (t_type s = t) as <- by (destruct (t_type s), t; cbn in Ec; congruence).
    eexists. split; [reflexivity|]. destruct o; cbn in *. unfold lv_rep; cbn. repeat split; auto.
Qed.

Lemma assign_step o s a : lv_rep o s ->
  exists x s', tells s a x s' /\ fst (lvar_assign o a) = x /\ lv_rep (snd (lvar_assign o a)) s'.
Proof.
  intros Hr. destruct a as [r|r|r|x|d|n]; cbn [lvar_assign].
  - do 2 eexists. split; [apply tells_dev|]. split; auto. unfold set_dev.
    destruct Hr as (Ht & Hop & Hu & Hde & Hd & Hc & Hl).
    pose proof (stored_layer (t_type s) (lv_unit o) r Hu) as Hs. destruct (layer (lv_unit o) r) as [y f].
    unfold lv_rep; cbn in *; repeat split; auto.
  - do 2 eexists. split; [apply tells_chp|]. split; auto. unfold set_chp.
    destruct Hr as (Ht & Hop & Hu & Hde & Hd & Hc & Hl).
    pose proof (stored_layer (t_type s) (lv_unit o) r Hu) as Hs. destruct (layer (lv_unit o) r) as [y f].
    unfold lv_rep; cbn in *; repeat split; auto.
  - do 2 eexists. split; [apply tells_lot|]. split; auto. unfold set_lot.
    destruct Hr as (Ht & Hop & Hu & Hde & Hd & Hc & Hl).
    pose proof (stored_layer (t_type s) (lv_unit o) r Hu) as Hs. destruct (layer (lv_unit o) r) as [y f].
    unfold lv_rep; cbn in *; repeat split; auto.
  - destruct (vtype_of x) as [t|] eqn:Ex.
    + destruct (set_type_rep o s t x Ex (or_introl Hr)) as (o' & E & Hr').
      rewrite E. cbn. do 2 eexists. split; [|split; [reflexivity|exact Hr']].
      apply vtype_of_Some in Ex. subst x. constructor.
    + unfold set_type. rewrite Ex. cbn. exists (Err InvalidTypeError), s. split; auto.
      constructor. intros t ->. rewrite vtype_of_name in Ex. discriminate.
  - do 2 eexists. split; [apply tells_deter|]. split; auto.
    destruct Hr as (Ht & Hop & Hu & Hde & Hd & Hc & Hl). unfold lv_rep; cbn; repeat split; auto.
  - do 2 eexists. split; [apply tells_name|]. split; auto.
    destruct Hr as (Ht & Hop & Hu & Hde & Hd & Hc & Hl).
    destruct n as [n|]; unfold lv_rep; cbn; repeat split; auto.
    + destruct (negb (lv_chpf o) && negb (lv_lotf o))%bool; now apply stored_rename.
    + now apply stored_rename.
    + now apply stored_rename.
Qed.

Lemma assigns_run o s l : lv_rep o s ->
  exists s', tells_all tells s l (fst (run_assigns lvar_assign o l)) s' /\
             lv_rep (snd (run_assigns lvar_assign o l)) s'.
Proof.
  revert o s. induction l as [|a r IH]; intros o s Hr; cbn [run_assigns].
  - exists s. split; [constructor|auto].
  - destruct (assign_step o s a Hr) as (x & s1 & Ht & Ex & Hr1).
    destruct (lvar_assign o a) as [x' o1] eqn:E. cbn in Ex, Hr1. subst x'.
    destruct (IH o1 s1 Hr1) as (s2 & Ha & Hr2). destruct (run_assigns lvar_assign o1 r) as [xs o2]. cbn in *.
    exists s2. split; auto. econstructor; eauto.
Qed.

Lemma lvar_init_rep dev chp lot deter name vt o :
  lvar_init dev chp lot deter name vt = Ok o ->
  exists t, vt = type_name t /\ (dev <> None \/ deter <> None) /\ lv_rep o (Told t deter dev chp lot).
Proof.
  unfold lvar_init.
  pose proof (stored_layer Offset n0 dev eq_refl) as Hd. pose proof (stored_layer Offset n0 chp eq_refl) as Hc.
  pose proof (stored_layer Offset n0 lot eq_refl) as Hl.
  destruct (layer n0 dev) as [d df], (layer n0 chp) as [c cf], (layer n0 lot) as [lo lf]. cbn [fst snd] in *.
  set (o0 := set_name _ name).
  destruct (vtype_of vt) as [t|] eqn:Et.
  2:{ unfold set_type. rewrite Et. discriminate. }
  assert (Hs : lv_type o0 = None /\ lv_deter o0 = deter /\
     stored Offset (lv_dev o0) (lv_devf o0) dev /\ stored Offset (lv_chp o0) (lv_chpf o0) chp /\
     stored Offset (lv_lot o0) (lv_lotf o0) lot).
  { unfold o0. destruct name as [n|]; cbn; repeat split; auto.
    - destruct (negb cf && negb lf)%bool; now apply stored_rename.
    - now apply stored_rename.
    - now apply stored_rename. }
  destruct Hs as (Hs1 & Hs2 & Hs3).
  destruct (set_type_rep o0 (Told t deter dev chp lot) t vt Et) as (o' & E & Hr).
  { right. split; [auto|]. split; [auto|]. exists Offset. exact Hs3. }
  rewrite E. cbn [rbind]. cbn in Hr.
  destruct dev; [|destruct deter]; intros Ho; inversion Ho; subst o'; exists t;
    (split; [now apply vtype_of_Some|]); split; auto; [left|right]; discriminate.
Qed.

Lemma lvar_init_ok dev chp lot deter name t : dev <> None \/ deter <> None ->
  exists o, lvar_init dev chp lot deter name (type_name t) = Ok o.
Proof.
  intros Hn. unfold lvar_init.
  pose proof (stored_layer Offset n0 dev eq_refl) as Hd. pose proof (stored_layer Offset n0 chp eq_refl) as Hc.
  pose proof (stored_layer Offset n0 lot eq_refl) as Hl.
  destruct (layer n0 dev) as [d df], (layer n0 chp) as [c cf], (layer n0 lot) as [lo lf].
  set (o0 := set_name _ name). unfold set_type. rewrite vtype_of_name. cbn [rbind].
  destruct dev; [eauto|]. destruct deter; [eauto|]. destruct Hn as [Hn|Hn]; congruence.
Qed.

Lemma lvar_init_errors dev chp lot deter name vt :
  ((forall t, vt <> type_name t) -> lvar_init dev chp lot deter name vt = Err InvalidTypeError) /\
  (forall t, vt = type_name t -> dev = None -> deter = None ->
     lvar_init dev chp lot deter name vt = Err UserConfigError).
Proof.
  split.
  - intros Hb. unfold lvar_init. destruct (layer n0 dev), (layer n0 chp), (layer n0 lot).
    unfold set_type. now rewrite vtype_of_bad.
  - intros t -> -> ->. unfold lvar_init. destruct (layer n0 None), (layer n0 chp), (layer n0 lot).
    unfold set_type. now rewrite vtype_of_name.
Qed.

Lemma latent_history dev chp lot deter name vt o l :
  lvar_init dev chp lot deter name vt = Ok o ->
  exists t s, vt = type_name t /\
    tells_all tells (Told t deter dev chp lot) l (fst (run_assigns lvar_assign o l)) s /\
    lvar_shows (snd (run_assigns lvar_assign o l)) s.
Proof.
  intros E. apply lvar_init_rep in E as (t & -> & _ & Hr).
  destruct (assigns_run _ _ l Hr) as (s & Ht & Hr'). exists t, s. split; auto. split; auto.
  now apply lv_rep_shows.
Qed.

(** gen_latent_vals *)
Lemma nth_error_Some_ex {A} (l : list A) i : i < length l -> exists x, nth_error l i = Some x.
Proof. intros Hi. destruct (nth_error l i) eqn:E; eauto. apply nth_error_None in E. lia. Qed.

Lemma aget_flat (s : list nat) (l : list V) idx x :
  nth_error l (flat s idx) = Some x -> aget (Nd s l) idx = x.
Proof. intros E. unfold aget; cbn. now apply nth_error_nth. Qed.

Lemma nbuild3_nth L C D (f : list nat -> V) l c d : l < L -> c < C -> d < D ->
  nth_error (ndata (nbuild [L; C; D] f)) ((l * C + c) * D + d) = Some (f [l; c; d]).
Proof.
  intros Hl Hc Hd. pose proof (nth_error_indices [L; C; D] [l; c; d]) as E.
  cbn [flat prod fold_right] in E.
  replace (l * (C * (D * 1)) + (c * (D * 1) + (d * 1 + 0))) with ((l * C + c) * D + d) in E by lia.
  cbn [nbuild ndata]. apply map_nth_error. apply E. now apply valid3.
Qed.

Lemma nbuild3_elem L C D (f : list nat -> V) l c d : l < L -> c < C -> d < D ->
  elem3 (nbuild [L; C; D] f) L C D l c d (f [l; c; d]).
Proof.
  intros Hl Hc Hd. split; [reflexivity|]. split.
  - cbn [nbuild ndata]. rewrite map_length, length_indices. cbn. lia.
  - now apply nbuild3_nth.
Qed.

Lemma bmap2_shape3 f (a b : nd V) L C D L' C' D' :
  nshape a = [L; C; D] -> nshape b = [L'; C'; D'] ->
  (L' = L \/ L' = 1) -> (C' = C \/ C' = 1) -> (D' = D \/ D' = 1) ->
  bmap2 f a b = Ok (nbuild [L; C; D] (fun idx => f (aget a idx) (bget b idx))).
Proof.
  intros Ha Hb H1 H2 H3. unfold bmap2. rewrite Ha, Hb, bshape3 by auto. f_equal. apply nbuild_ext.
  intros idx Hv. f_equal. apply bget_same. now rewrite Ha.
Qed.

Lemma nreshape_ok s (l : list V) s0 : prod s = length l -> nreshape s (Nd s0 l) = Ok (Nd s l).
Proof. intros E. unfold nreshape. cbn [ndata]. rewrite E, Nat.eqb_refl. reflexivity. Qed.

Lemma idx2_lt L C l c : l < L -> c < C -> l * C + c < L * C.
Proof. nia. Qed.
Lemma idx3_lt L C D l c d : l < L -> c < C -> d < D -> (l * C + c) * D + d < L * C * D.
Proof. intros Hl Hc Hd. apply idx2_lt; auto. now apply idx2_lt. Qed.

Lemma gen_latent_main o s D C L w : lv_rep o s ->
  match sample (lv_lot o) L w with
  | (Err e, w1) => gen_latent o D C L w = (Err e, w1)
  | (Ok lots, w1) =>
    match sample (lv_chp o) (L * C) w1 with
    | (Err e, w2) => gen_latent o D C L w = (Err e, w2)
    | (Ok chps, w2) =>
      match sample (lv_dev o) (L * C * D) w2 with
      | (Err e, w3) => gen_latent o D C L w = (Err e, w3)
      | (Ok devs, w3) =>
          exists a, gen_latent o D C L w = (Ok a, w3) /\
            nshape a = [L; C; D] /\ length (ndata a) = L * C * D /\
            forall l c d, l < L -> c < C -> d < D ->
            exists xd xc xl,
              nth_error devs ((l * C + c) * D + d) = Some xd /\
              nth_error chps (l * C + c) = Some xc /\
              nth_error lots l = Some xl /\
              nth_error (ndata a) ((l * C + c) * D + d) =
                Some (combine (t_type s) (combine (t_type s)
                       (match t_deter s with Some v => combine (t_type s) v xd | None => xd end) xc) xl)
      end
    end
  end.
Proof.
  intros (Ht & Hop & Hu & Hde & Hd & Hc & Hl). unfold gen_latent.
  destruct (sample (lv_lot o) L w) as [[lots|e] w1] eqn:E1; [|now apply bind_eval_err].
  rewrite (bind_eval _ _ _ _ _ E1).
  destruct (sample (lv_chp o) (L * C) w1) as [[chps|e] w2] eqn:E2; [|now apply bind_eval_err].
  rewrite (bind_eval _ _ _ _ _ E2).
  destruct (sample (lv_dev o) (L * C * D) w2) as [[devs|e] w3] eqn:E3; [|now apply bind_eval_err].
  rewrite (bind_eval _ _ _ _ _ E3).
  apply sample_length in E1, E2, E3. unfold lift.
  rewrite !nreshape_ok by (cbn [prod fold_right]; lia). cbn [rbind]. rewrite Hop, Hde.
  set (t := t_type s).
  assert (Hcomb : forall x y, op_of t x y = combine t x y) by (intros; destruct t; reflexivity).
  set (dev := Nd [L; C; D] devs). set (chp := Nd [L; C; 1] chps). set (lot := Nd [L; 1; 1] lots).
  assert (Hvals : exists vals, match t_deter s with
       | Some v => bmap2 (op_of t) (nfull [L; C; D] v) dev | None => Ok dev end = Ok vals /\
       nshape vals = [L; C; D] /\ forall idx, valid [L; C; D] idx -> aget vals idx =
         match t_deter s with Some v => combine t v (aget dev idx) | None => aget dev idx end).
  { destruct (t_deter s) as [v|].
    - rewrite bmap2_same by reflexivity. eexists. split; [reflexivity|]. split; [reflexivity|].
      intros idx Hv. rewrite aget_nbuild by exact Hv. unfold nfull. rewrite aget_nbuild by exact Hv. apply Hcomb.
    - exists dev. auto. }
  destruct Hvals as (vals & -> & Hvs & Hvg). cbn [rbind].
  rewrite (bmap2_shape3 _ vals chp L C D L C 1) by auto. cbn [rbind].
  rewrite (bmap2_shape3 _ _ lot L C D L 1 1) by auto.
  eexists. split; [reflexivity|]. split; [reflexivity|]. split.
  { cbn [nbuild ndata]. rewrite map_length, length_indices. cbn. lia. }
  intros l c d Hll Hcc Hdd.
  destruct (nth_error_Some_ex devs ((l * C + c) * D + d)) as [xd Hxd]; [rewrite E3; now apply idx3_lt|].
  destruct (nth_error_Some_ex chps (l * C + c)) as [xc Hxc]; [rewrite E2; now apply idx2_lt|].
  destruct (nth_error_Some_ex lots l) as [xl Hxl]; [lia|].
  exists xd, xc, xl. repeat split; auto. rewrite nbuild3_nth by auto. f_equal.
  rewrite Hcomb. assert (Hv : valid [L; C; D] [l; c; d]) by now apply valid3.
  rewrite aget_nbuild by auto. rewrite Hcomb, Hvg by auto.
  rewrite (bget3_chp chp L C) by auto. rewrite (bget3_lot lot L) by auto.
  rewrite (aget_flat [L; C; D] devs _ xd), (aget_flat [L; C; 1] chps _ xc), (aget_flat [L; 1; 1] lots _ xl); auto.
  - cbn [flat prod fold_right]. rewrite <- Hxl. f_equal. lia.
  - cbn [flat prod fold_right]. rewrite <- Hxc. f_equal. lia.
  - cbn [flat prod fold_right]. rewrite <- Hxd. f_equal. lia.
Qed.
End Layers.

Section Env.
Context {V : Type} `{NumOps V} `{Rng V}.

Definition em_rep (o : emdl V) (s : etold V) : Prop :=
  em_type o = Some (et_type s) /\ em_op o = Some (et_type s) /\ em_unit o = unit_of (et_type s) /\
  stored (et_type s) (em_dev o) (em_devf o) (et_dev s) /\
  stored (et_type s) (em_chp o) (em_chpf o) (et_chp s) /\
  stored (et_type s) (em_bat o) (em_batf o) (et_bat s).

Lemma em_rep_shows o s : em_rep o s -> emdl_shows o s.
Proof.
  intros (Ht & Ho & Hu & Hd & Hc & Hl). apply stored_behaves in Hd as [Hd Hdf], Hc as [Hc Hcf], Hl as [Hl Hlf].
  unfold emdl_shows. repeat split; auto. exists (et_type s). split; auto. intros x y. destruct (et_type s); reflexivity.
Qed.

Lemma eset_type_rep o s t x : vtype_of x = Some t ->
  (em_rep o s \/ (em_type o = None /\ exists t0,
     stored t0 (em_dev o) (em_devf o) (et_dev s) /\ stored t0 (em_chp o) (em_chpf o) (et_chp s) /\
     stored t0 (em_bat o) (em_batf o) (et_bat s))) ->
  exists o', eset_type o x = Ok o' /\ em_rep o' (ETold t (et_dev s) (et_chp s) (et_bat s)).
Proof.
  intros Hx Ho. unfold eset_type. rewrite Hx.
  set (changed := match em_type o with None => true | Some t' => negb (vtype_eqb t' t) end).
  destruct changed eqn:Ec.
  - assert (Hs : exists t0,
     stored t0 (em_dev o) (em_devf o) (et_dev s) /\ stored t0 (em_chp o) (em_chpf o) (et_chp s) /\
     stored t0 (em_bat o) (em_batf o) (et_bat s)).
    { destruct Ho as [(_ & _ & _ & Hd & Hc & Hl)|(_ & t0 & Hd & Hc & Hl)]; eauto 8. }
    destruct Hs as (t0 & Hd & Hc & Hl).
    apply (stored_given t0 t _ _ _ _ eq_refl) in Hd, Hc, Hl.
    destruct o as [nm ty un op lo lf cp cf dv df]; cbn in *.
    destruct lf; cbn in *; destruct cf; cbn in *; destruct df; cbn in *; eexists; (split; [reflexivity|]);
      unfold em_rep; cbn; repeat split; auto.
  - destruct Ho as [Hr|(E & _)]; [|unfold changed in Ec; rewrite E in Ec; discriminate].
    destruct Hr as (Ht & Hop & Hu & Hd & Hc & Hl). unfold changed in Ec. rewrite Ht in Ec.
    assert (et_type s = t) as <- by (destruct (et_type s), t; cbn in Ec; congruence).
    eexists. split; [reflexivity|]. destruct o; cbn in *. unfold em_rep; cbn. repeat split; auto.
Qed.

Lemma eassign_step o s a : em_rep o s ->
  exists x s', etells s a x s' /\ fst (emdl_assign o a) = x /\ em_rep (snd (emdl_assign o a)) s'.
Proof.
  intros Hr. destruct a as [r|r|r|x|n]; cbn [emdl_assign].
  - do 2 eexists. split; [apply etells_dev|]. split; auto. unfold eset_dev.
    destruct Hr as (Ht & Hop & Hu & Hd & Hc & Hl).
    pose proof (stored_layer (et_type s) (em_unit o) r Hu) as Hs. destruct (layer (em_unit o) r) as [y f].
    unfold em_rep; cbn in *; repeat split; auto.
  - do 2 eexists. split; [apply etells_chp|]. split; auto. unfold eset_chp.
    destruct Hr as (Ht & Hop & Hu & Hd & Hc & Hl).
    pose proof (stored_layer (et_type s) (em_unit o) r Hu) as Hs. destruct (layer (em_unit o) r) as [y f].
    unfold em_rep; cbn in *; repeat split; auto.
  - do 2 eexists. split; [apply etells_bat|]. split; auto. unfold eset_bat.
    destruct Hr as (Ht & Hop & Hu & Hd & Hc & Hl).
    pose proof (stored_layer (et_type s) (em_unit o) r Hu) as Hs. destruct (layer (em_unit o) r) as [y f].
    unfold em_rep; cbn in *; repeat split; auto.
  - destruct (vtype_of x) as [t|] eqn:Ex.
    + destruct (eset_type_rep o s t x Ex (or_introl Hr)) as (o' & E & Hr').
      rewrite E. cbn. do 2 eexists. split; [|split; [reflexivity|exact Hr']].
      apply vtype_of_Some in Ex. subst x. constructor.
    + unfold eset_type. rewrite Ex. cbn. exists (Err InvalidTypeError), s. split; auto.
      constructor. intros t ->. rewrite vtype_of_name in Ex. discriminate.
  - do 2 eexists. split; [apply etells_name|]. split; auto.
Qed.

Lemma eassigns_run o s l : em_rep o s ->
  exists s', tells_all etells s l (fst (run_assigns emdl_assign o l)) s' /\
             em_rep (snd (run_assigns emdl_assign o l)) s'.
Proof.
  revert o s. induction l as [|a r IH]; intros o s Hr; cbn [run_assigns].
  - exists s. split; [constructor|auto].
  - destruct (eassign_step o s a Hr) as (x & s1 & Ht & Ex & Hr1).
    destruct (emdl_assign o a) as [x' o1] eqn:E. cbn in Ex, Hr1. subst x'.
    destruct (IH o1 s1 Hr1) as (s2 & Ha & Hr2). destruct (run_assigns emdl_assign o1 r) as [xs o2]. cbn in *.
    exists s2. split; auto. econstructor; eauto.
Qed.

Lemma emdl_init_rep dev chp bat vt name :
  match vtype_of vt with
  | None => emdl_init dev chp bat vt name = Err InvalidTypeError
  | Some t => exists o, emdl_init dev chp bat vt name = Ok o /\ em_rep o (ETold t dev chp bat)
  end.
Proof.
  unfold emdl_init.
  pose proof (stored_layer Offset n0 dev eq_refl) as Hd. pose proof (stored_layer Offset n0 chp eq_refl) as Hc.
  pose proof (stored_layer Offset n0 bat eq_refl) as Hl.
  destruct (layer n0 dev) as [d df], (layer n0 chp) as [c cf], (layer n0 bat) as [lo lf]. cbn [fst snd] in *.
  destruct (vtype_of vt) as [t|] eqn:Et.
  - destruct (eset_type_rep (EMdl name None n0 None lo lf c cf d df) (ETold t dev chp bat) t vt Et) as (o' & E & Hr); eauto.
    right. split; auto. exists Offset. auto.
  - unfold eset_type. now rewrite Et.
Qed.

Lemma env_history dev chp bat vt name o l :
  emdl_init dev chp bat vt name = Ok o ->
  exists t s, vt = type_name t /\
    tells_all etells (ETold t dev chp bat) l (fst (run_assigns emdl_assign o l)) s /\
    emdl_shows (snd (run_assigns emdl_assign o l)) s.
Proof.
  intros E. pose proof (emdl_init_rep dev chp bat vt name) as Hi. destruct (vtype_of vt) as [t|] eqn:Et; [|congruence].
  destruct Hi as (o' & E' & Hr). rewrite E in E'. inversion E'; subst o'.
  destruct (eassigns_run _ _ l Hr) as (s & Ht & Hr'). exists t, s. split; [now apply vtype_of_Some|].
  split; auto. now apply em_rep_shows.
Qed.

Lemma nbuild_amap (f : V -> V) (a : nd V) : awf a -> nbuild (nshape a) (fun idx => f (aget a idx)) = amap f a.
Proof.
  intros Ha. apply nd_ext; auto using awf_nbuild, awf_amap.
  intros idx Hv. cbn [nshape nbuild] in Hv. rewrite aget_nbuild by auto. now rewrite aget_amap.
Qed.

Lemma combine_op t (x y : V) : op_of t x y = combine t x y.
Proof. destruct t; reflexivity. Qed.

Lemma gen_batch_eq o s base w : em_rep o s ->
  gen_batch o base w =
  match sample (em_bat o) 1 w with
  | (Ok xs, w1) => (Ok (Nd [1] (map (combine (et_type s) base) xs)), w1)
  | (Err e, w1) => (Err e, w1)
  end.
Proof.
  intros (Ht & Hop & _). unfold gen_batch, bind. destruct (sample (em_bat o) 1 w) as [[xs|e] w1] eqn:E; auto.
  apply sample_length in E. unfold lift, em_opE. rewrite Hop. cbn [rbind]. rewrite bmap2_scalar_l.
  do 2 f_equal. cbn [nshape]. rewrite (nbuild_amap (op_of (et_type s) base) (Nd [1] xs)) by (unfold awf; cbn; lia).
  unfold amap; cbn. f_equal. apply map_ext. intros. apply combine_op.
Qed.

Lemma nfull_arr1 L C (b : V) : nfull_arr [L; C] (Nd [1] [b]) = Ok (nfull [L; C] b).
Proof.
  unfold nfull_arr. cbn [nshape].
  assert (E : bshape [1] [L; C] = Some [L; C]).
  { unfold bshape. cbn. destruct C as [|[|C]]; reflexivity. }
  rewrite E. destruct (list_eq_dec Nat.eq_dec [L; C] [L; C]); [|congruence]. f_equal.
  apply nbuild_ext. intros idx Hv. unfold bget. cbn [nshape].
  pose proof (valid_length _ _ Hv) as Hl. destruct idx as [|i [|j [|? ?]]]; cbn in Hl; try lia. reflexivity.
Qed.

Lemma gen_chp_eq o s b C L w : em_rep o s ->
  gen_chp o (Nd [1] [b]) C L w =
  match sample (em_chp o) (C * L) w with
  | (Ok xs, w1) => (Ok (Nd [L; C] (map (combine (et_type s) b) xs)), w1)
  | (Err e, w1) => (Err e, w1)
  end.
Proof.
  intros (Ht & Hop & _). unfold gen_chp. rewrite nfull_arr1.
  unfold bind, lift, em_opE. rewrite Hop. destruct (sample (em_chp o) (C * L) w) as [[xs|e] w1] eqn:E; auto.
  apply sample_length in E. rewrite nreshape_ok by (cbn [prod fold_right]; lia). cbn [rbind].
  rewrite bmap2_same by reflexivity. do 2 f_equal. cbn [nshape nfull nbuild].
  rewrite (nbuild_ext _ _ (fun idx => op_of (et_type s) b (aget (Nd [L; C] xs) idx))).
  - rewrite (nbuild_amap (op_of (et_type s) b) (Nd [L; C] xs)) by (unfold awf; cbn; lia).
    unfold amap; cbn. f_equal. apply map_ext. intros. apply combine_op.
  - intros idx Hv. f_equal. exact (aget_nbuild [L; C] (fun _ => b) idx Hv).
Qed.

Lemma gen_dev_eq o s bs L C D w : em_rep o s -> length bs = L * C ->
  match sample (em_dev o) (D * (L * C)) w with
  | (Err e, w1) => gen_dev o (Nd [L; C] bs) D w = (Err e, w1)
  | (Ok xs, w1) => exists a, gen_dev o (Nd [L; C] bs) D w = (Ok a, w1) /\
      nshape a = [L; C; D] /\ length (ndata a) = L * C * D /\
      forall l c d, l < L -> c < C -> d < D -> exists b x,
        nth_error bs (l * C + c) = Some b /\ nth_error xs ((l * C + c) * D + d) = Some x /\
        nth_error (ndata a) ((l * C + c) * D + d) = Some (combine (et_type s) b x)
  end.
Proof.
  intros (Ht & Hop & _) Hb. unfold gen_dev. cbn [ndata nshape]. rewrite Hb.
  destruct (sample (em_dev o) (D * (L * C)) w) as [[xs|e] w1] eqn:E.
  2:{ unfold bind, lift, em_opE. rewrite Hop. now rewrite E. }
  unfold bind at 1, lift at 1, em_opE. rewrite Hop. rewrite (bind_eval _ _ _ _ _ E). unfold lift.
  apply sample_length in E. rewrite nreshape_ok by (cbn [prod fold_right]; lia). cbn [rbind].
  unfold bmap2, nexpand. cbn [nshape ndata app].
  assert (Es : bshape [L; C; 1] [L; C; D] = Some [L; C; D]).
  { unfold bshape. cbn [rev app bshape_rev]. rewrite !Nat.eqb_refl.
    destruct (Nat.eqb_spec 1 D); [subst; reflexivity|]. reflexivity. }
  rewrite Es. eexists. split; [reflexivity|]. split; [reflexivity|]. split.
  { cbn [nbuild ndata]. rewrite map_length, length_indices. cbn. lia. }
  intros l c d Hll Hcc Hdd.
  destruct (nth_error_Some_ex bs (l * C + c)) as [b Hxb]; [rewrite Hb; now apply idx2_lt|].
  destruct (nth_error_Some_ex xs ((l * C + c) * D + d)) as [x Hx].
  { rewrite E. pose proof (idx3_lt L C D l c d Hll Hcc Hdd). lia. }
  exists b, x. repeat split; auto. rewrite nbuild3_nth by auto. rewrite <- combine_op. do 2 f_equal.
  - rewrite (bget3_chp _ L C) by auto. apply aget_flat. cbn [flat prod fold_right]. rewrite <- Hxb. f_equal. lia.
  - assert (Hv : valid [L; C; D] [l; c; d]) by now apply valid3. rewrite bget_same by exact Hv.
    apply aget_flat. cbn [flat prod fold_right]. rewrite <- Hx. f_equal. lia.
Qed.

Lemma gen_env_main o s base D C L w : em_rep o s ->
  match sample (em_bat o) 1 w with
  | (Err e, w1) => gen_env o base D C L w = (Err e, w1)
  | (Ok bats, w1) =>
    match sample (em_chp o) (C * L) w1 with
    | (Err e, w2) => gen_env o base D C L w = (Err e, w2)
    | (Ok chps, w2) =>
      match sample (em_dev o) (D * (L * C)) w2 with
      | (Err e, w3) => gen_env o base D C L w = (Err e, w3)
      | (Ok devs, w3) =>
          exists a, gen_env o base D C L w = (Ok a, w3) /\
            nshape a = [L; C; D] /\ length (ndata a) = L * C * D /\
            exists xb, bats = [xb] /\
            forall l c d, l < L -> c < C -> d < D ->
            exists xd xc,
              nth_error devs ((l * C + c) * D + d) = Some xd /\
              nth_error chps (l * C + c) = Some xc /\
              nth_error (ndata a) ((l * C + c) * D + d) =
                Some (combine (et_type s) (combine (et_type s) (combine (et_type s) base xb) xc) xd)
      end
    end
  end.
Proof.
  intros Hr. unfold gen_env. pose proof (gen_batch_eq o s base w Hr) as Eb.
  destruct (sample (em_bat o) 1 w) as [[bats|e] w1] eqn:E1; [|now apply bind_eval_err].
  rewrite (bind_eval _ _ _ _ _ Eb). apply sample_length in E1.
  destruct bats as [|xb [|? ?]]; cbn in E1; try lia. cbn [map].
  pose proof (gen_chp_eq o s (combine (et_type s) base xb) C L w1 Hr) as Ec.
  destruct (sample (em_chp o) (C * L) w1) as [[chps|e] w2] eqn:E2; [|now apply bind_eval_err].
  rewrite (bind_eval _ _ _ _ _ Ec). apply sample_length in E2.
  set (bs := map _ chps) in *. assert (Hbs : length bs = L * C) by (unfold bs; rewrite map_length; lia).
  pose proof (gen_dev_eq o s bs L C D w2 Hr Hbs) as Ed.
  destruct (sample (em_dev o) (D * (L * C)) w2) as [[devs|e] w3] eqn:E3; [|exact Ed].
  destruct Ed as (a & Ea & Hs & Hl & Hel). exists a. repeat split; auto. exists xb. split; auto.
  intros l c d Hll Hcc Hdd. destruct (Hel l c d Hll Hcc Hdd) as (b & x & Hb & Hx & Hn).
  unfold bs in Hb. rewrite nth_error_map in Hb. destruct (nth_error chps (l * C + c)) as [xc|] eqn:Exc; [|discriminate].
  cbn in Hb. inversion Hb; subst b. exists x, xc. auto.
Qed.
End Env.
