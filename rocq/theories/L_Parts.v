(** Lemmas for C86: parameters with generators of their own can be simulated apart. *)
From Coq Require Import Lia.
From Verif Require Import M_Sim S_Foot S_Parts L_Base L_Foot L_Foot2 L_Foot3.
Open Scope nat_scope.

Section Parts.
Context {V : Type} `{O : NumOps V} `{R : Rng V} `{Ho : HashOrd}.

Lemma keep_keep {A} K K' (d : dict A) : keep K' (keep K d) = keep (fun x => K x && K' x) d.
Proof.
  unfold keep. induction d as [|[k a] d IH]; [reflexivity|]. cbn [filter fst].
  destruct (K k); cbn [filter fst andb]; [destruct (K' k); rewrite IH|]; auto.
Qed.
Lemma keep_ext {A} K K' (d : dict A) : (forall x, K x = K' x) -> keep K d = keep K' d.
Proof. intros E. apply filter_ext. intros [k a]. apply E. Qed.
Lemma keep_dget {A} K (d : dict A) n : dget (keep K d) n = if K n then dget d n else None.
Proof.
  induction d as [|[k a] d IH]; [destruct (K n); reflexivity|].
  unfold keep in *. cbn [filter fst dget]. destruct (String.eqb_spec n k) as [<-|N].
  - destruct (K n) eqn:En; [cbn [dget]; rewrite String.eqb_refl; reflexivity|]. exact IH.
  - destruct (K k); [cbn [dget]; destruct (String.eqb_spec n k) as [->|_]; [contradiction|]|]; exact IH.
Qed.
Lemma keep_keys {A} K (d : dict A) x : In x (dkeys (keep K d)) -> In x (dkeys d).
Proof.
  unfold dkeys, keep. intros Hx. apply in_map_iff in Hx as ([k a] & <- & Hx).
  apply filter_In in Hx as [Hx _]. apply (in_map fst) in Hx. exact Hx.
Qed.
Lemma keep_keys_in {A} K (d : dict A) x : In x (dkeys (keep K d)) -> K x = true.
Proof.
  unfold dkeys, keep. intros Hx. apply in_map_iff in Hx as ([k a] & <- & Hx).
  apply filter_In in Hx as [_ Hx]. exact Hx.
Qed.
Lemma keep_wf {A} K (d : dict A) : dwf d -> dwf (keep K d).
Proof.
  unfold dwf, dkeys, keep. induction d as [|[k a] d IH]; cbn [filter map fst]; [auto|].
  intros Hn. apply NoDup_cons_iff in Hn as [Hk Hn]. destruct (K k); [cbn [map fst]|auto].
  constructor; [|auto]. intros Hx. apply Hk. apply (keep_keys K d k Hx).
Qed.
Lemma keep_all {A} (d : dict A) : keep (fun _ => true) d = d.
Proof. unfold keep. induction d as [|x d IH]; [reflexivity|]. cbn [filter]. now rewrite IH. Qed.
Lemma filter_true {A} (l : list A) : filter (fun _ => true) l = l.
Proof. induction l as [|x l IH]; [reflexivity|]. cbn [filter]. now rewrite IH. Qed.

(** Keeping all but those of a list. *)
Definition but (qs : list string) (x : string) : bool := negb (existsb (String.eqb x) qs).
Lemma but_in qs x : but qs x = false <-> In x qs.
Proof.
  unfold but. rewrite Bool.negb_false_iff, existsb_exists. split.
  - intros (y & Hy & E). apply String.eqb_eq in E as ->. exact Hy.
  - intros Hx. exists x. split; [exact Hx|apply String.eqb_refl].
Qed.
Lemma but_cons q qs x : but (q :: qs) x = but qs x && negb (String.eqb x q).
Proof. unfold but. cbn [existsb]. destruct (String.eqb x q), (existsb (String.eqb x) qs); reflexivity. Qed.

Lemma filter_filter {A} (f g : A -> bool) l : filter g (filter f l) = filter (fun x => f x && g x) l.
Proof.
  induction l as [|x l IH]; [reflexivity|]. cbn [filter].
  destruct (f x); cbn [filter andb]; [destruct (g x); rewrite IH|]; auto.
Qed.

Lemma without_but {A} q qs (d : dict A) : without q (keep (but qs) d) = keep (but (q :: qs)) d.
Proof.
  change (without q (keep (but qs) d)) with (keep (fun x => negb (String.eqb x q)) (keep (but qs) d)).
  rewrite keep_keep. apply keep_ext. intros x. now rewrite but_cons.
Qed.
Lemma unmeasured_but q qs (s : step V) : unmeasured q (measuring (but qs) s) = measuring (but (q :: qs)) s.
Proof. destruct s; try reflexivity. cbn [measuring unmeasured ms_counts ms_conds ms_name]. now rewrite without_but. Qed.
Lemma state_but q qs (s : simstate V) : state_without q (state_part (but qs) s) = state_part (but (q :: qs)) s.
Proof.
  unfold state_without, state_part. cbn [st_elapsed st_prm st_prm0 st_mech st_mech0 st_lat].
  now rewrite !without_but.
Qed.
Lemma report_but q qs (r : report V) : report_without q (report_part (but qs) r) = report_part (but (q :: qs)) r.
Proof.
  unfold report_without, report_part. cbn [rp_chps rp_lots rp_counts rp_meas rp_sum].
  rewrite without_but, filter_filter. f_equal. apply filter_ext. intros x. now rewrite but_cons.
Qed.

(** Widening the sets of generators. *)
Lemma lvar_in_mono (G G' : nat -> Prop) (o : lvar V) : (forall g, G g -> G' g) -> lvar_in G o -> lvar_in G' o.
Proof. intros I (A & B & C). repeat split; eapply rv_in_mono; eassumption. Qed.
Lemma vars_in_mono (G G' : nat -> Prop) (m : lmdl V) : (forall g, G g -> G' g) -> vars_in G m -> vars_in G' m.
Proof. intros I A x o Hx. eapply lvar_in_mono; [exact I|]. exact (A x o Hx). Qed.
Lemma eqn_in_mono (G G' : nat -> Prop) (f : eqn V) : (forall g, G g -> G' g) -> eqn_in G f -> eqn_in G' f.
Proof. intros I A args. eapply confined_mono; [exact I|]. apply A. Qed.
Lemma parameter_in_mono (G G' : nat -> Prop) (e : env V) l l' x (p : prm V) :
  (forall g, G g -> G' g) ->
  (forall s, In (SStrs s) l' -> In (SStrs s) l) ->
  (forall m', In (SMeas m') l' -> exists m, In (SMeas m) l /\ ms_conds m = ms_conds m' /\
     forall y, In y (dkeys (ms_counts m')) -> In y (dkeys (ms_counts m))) ->
  parameter_in G e l x p -> parameter_in G' e l' x p.
Proof.
  intros I Hs Hm (A & B & C & D).
  assert (Dv : forall c, device_in G e c -> device_in G' e c).
  { intros c Hc m E. eapply rv_in_mono; [exact I|]. exact (Hc m E). }
  split; [|split; [|split]].
  - destruct p as [p|c]; cbn [birth_in] in *.
    + destruct A as (A1 & A2 & A3 & A4 & A5).
      split; [exact (vars_in_mono _ _ _ I A1)|split; [exact (eqn_in_mono _ _ _ I A2)|]].
      split; [exact (vars_in_mono _ _ _ I A3)|split; [|exact (vars_in_mono _ _ _ I A5)]].
      intros n m Hn. exact (vars_in_mono _ _ _ I (A4 n m Hn)).
    + eapply vars_in_mono; eassumption.
  - destruct p as [p|c].
    + destruct B as ((B1 & B2) & (B3 & B4) & B5). split; [split|split; [split|]];
        [|exact (eqn_in_mono _ _ _ I B2)|exact (eqn_in_mono _ _ _ I B3)|exact (eqn_in_mono _ _ _ I B4)|].
      * intros n m Hn. exact (eqn_in_mono _ _ _ I (B1 n m Hn)).
      * intros s c Hin Hc. apply Dv. exact (B5 s c (Hs s Hin) Hc).
    + eapply eqn_in_mono; eassumption.
  - intros m c Hin Hx Hc. destruct (Hm m Hin) as (m0 & H0 & E0 & K0). apply Dv.
    refine (C m0 c H0 (K0 x Hx) _). now rewrite E0.
  - intros m Hin Hx i r Ei Er. destruct (Hm m Hin) as (m0 & H0 & E0 & K0).
    eapply rv_in_mono; [exact I|]. exact (D m0 H0 (K0 x Hx) i r Ei Er).
Qed.

Lemma measuring_strs K (l : list (step V)) s : In (SStrs s) (map (measuring K) l) -> In (SStrs s) l.
Proof.
  intros Hs. apply in_map_iff in Hs as (t & E & Ht). destruct t; cbn [measuring] in E; try discriminate E.
  injection E as <-. exact Ht.
Qed.
Lemma measuring_meas K (l : list (step V)) m' : In (SMeas m') (map (measuring K) l) ->
  exists m, In (SMeas m) l /\ ms_conds m = ms_conds m' /\ ms_counts m' = keep K (ms_counts m).
Proof.
  intros Hs. apply in_map_iff in Hs as (t & E & Ht). destruct t as [m| |]; cbn [measuring] in E; try discriminate E.
  injection E as <-. exists m. auto.
Qed.

(** Removing one parameter after the other. *)
Lemma parts_removed S F G (e : env V) (d : device V) steps C L w st rep w1 :
  dwf d -> separate S F G e d steps ->
  simulate e d steps C L None w = (Ok (st, rep), w1) ->
  forall qs, NoDup qs -> (forall q, In q qs -> S q) ->
  (forall q, In q qs -> exists p, dget d q = Some (PDeg p)) ->
  (forall n c q, dget d n = Some (PCirc c) -> In q qs -> ~ In q (compute_args (lm_eqn c))) ->
  exists w1', simulate e (keep (but qs) d) (map (measuring (but qs)) steps) C L None w
    = (Ok (state_part (but qs) st, report_part (but qs) rep), w1').
Proof.
  intros Wf (Pi & Dj & DjG & Su) Hs. induction qs as [|q qs IH]; intros Nd HS Hq Hc.
  - exists w1.
    assert (E : forall A (x : dict A), keep (but []) x = x).
    { intros A x. rewrite <- (keep_all x) at 2. apply keep_ext. reflexivity. }
    rewrite E. replace (map (measuring (but [])) steps) with steps.
    2:{ rewrite <- (map_id steps) at 1. apply map_ext. intros [m| |]; try reflexivity.
        cbn [measuring]. rewrite E. now destruct m. }
    replace (state_part (but []) st) with st by (unfold state_part; rewrite !E; now destruct st).
    replace (report_part (but []) rep) with rep; [exact Hs|].
    unfold report_part. rewrite E. change (fun x : row V => but [] (r_param x)) with (fun _ : row V => true).
    rewrite filter_true. now destruct rep.
  - apply NoDup_cons_iff in Nd as [Nq Nd].
    destruct IH as (w2 & IH); [exact Nd|intros q' H'; apply HS; now right|intros q' H'; apply Hq; now right|intros n c q' E H'; apply (Hc n c q' E); now right|].
    destruct (Hq q (or_introl eq_refl)) as [p Ep]. pose proof (HS q (or_introl eq_refl)) as Sq.
    assert (Bq : but qs q = true).
    { destruct (but qs q) eqn:E; [reflexivity|]. apply but_in in E. contradiction. }
    assert (Ms : forall m', In (SMeas m') (map (measuring (but qs)) steps) -> exists m, In (SMeas m) steps /\
              ms_conds m = ms_conds m' /\ forall y, In y (dkeys (ms_counts m')) -> In y (dkeys (ms_counts m))).
    { intros m' Hm. apply measuring_meas in Hm as (m & H1 & H2 & H3). exists m. split; [exact H1|split; [exact H2|]].
      intros y Hy. rewrite H3 in Hy. exact (keep_keys _ _ _ Hy). }
    assert (Sur : surroundings_in (fun g => ~ F q g) e (keep (but qs) d) (map (measuring (but qs)) steps)).
    { assert (I : forall g, G g -> ~ F q g).
      { intros g Hg Hf. exact (DjG q g Sq ltac:(rewrite Ep; discriminate) Hf Hg). }
      assert (Sh : forall c, shared_in G e c -> shared_in (fun g => ~ F q g) e c).
      { intros c A m E. destruct (A m E) as [A1 A2]. split; eapply rv_in_mono; eassumption. }
      destruct Su as (S1 & S2 & S3). split; [|split].
      - intros s c Hin Hcc. apply Sh. exact (S1 s c (measuring_strs _ _ _ Hin) Hcc).
      - intros m c Hin Hcc. destruct (Ms m Hin) as (m0 & H0 & E0 & _). apply Sh. refine (S2 m0 c H0 _). now rewrite E0.
      - intros m x Hin Hx Hd. pose proof (measuring_meas _ _ _ Hin) as (m0 & H0 & E0 & K0).
        rewrite K0 in Hx. pose proof (keep_keys_in _ _ _ Hx) as Kx. rewrite keep_dget, Kx in Hd.
        destruct (S3 m0 x H0 (keep_keys _ _ _ Hx) Hd) as ((A1 & A2) & A3). split; [split|].
        + apply Sh, A1.
        + intros m1 E1. eapply rv_in_mono; [exact I|]. exact (A2 m1 E1).
        + intros i r Ei Er. eapply rv_in_mono; [exact I|]. exact (A3 i r Ei Er). }
    destruct (parameter_removed (fun g => ~ F q g) e (keep (but qs) d) q p (map (measuring (but qs)) steps) C L w
                (state_part (but qs) st) (report_part (but qs) rep) w2) as [w3 E3].
    + apply keep_wf, Wf.
    + rewrite keep_dget, Bq. exact Ep.
    + intros n c En. rewrite keep_dget in En. destruct (but qs n); [|discriminate].
      apply (Hc n c q En). now left.
    + intros n x En Nn. rewrite keep_dget in En. destruct (but qs n); [|discriminate].
      eapply parameter_in_mono; [| |exact Ms|exact (Pi n x En)]; [|intros s; apply measuring_strs].
      intros g Hg Hf. refine (Dj q n g Sq _ _ (fun E => Nn (eq_sym E)) Hf Hg); [rewrite Ep|rewrite En]; discriminate.
    + eapply parameter_in_mono; [| |exact Ms|exact (Pi q _ Ep)]; [|intros s; apply measuring_strs].
      intros g Hg Hn. exact (Hn Hg).
    + exact Sur.
    + exact IH.
    + exists w3. rewrite without_but, state_but, report_but in E3. rewrite map_map in E3.
      erewrite map_ext in E3; [exact E3|]. intros s. apply unmeasured_but.
Qed.

(** The same for any set of names whose complement consists of parameters. *)
Lemma part_alone F G K (e : env V) (d : device V) steps C L w st rep w1 :
  dwf d -> separate (fun n => K n = false) F G e d steps ->
  (forall q, K q = false -> exists p, dget d q = Some (PDeg p)) ->
  (forall n c q, dget d n = Some (PCirc c) -> K q = false -> ~ In q (compute_args (lm_eqn c))) ->
  simulate e d steps C L None w = (Ok (st, rep), w1) ->
  exists w1', simulate e (keep K d) (map (measuring K) steps) C L None w
    = (Ok (state_part K st, report_part K rep), w1').
Proof.
  intros Wf Sep Hq Hc Hs.
  set (qs := filter (fun x => negb (K x)) (dkeys d)).
  assert (Q : forall q, In q qs <-> K q = false).
  { intros q. unfold qs. rewrite filter_In, Bool.negb_true_iff. split; [tauto|]. intros E. split; [|exact E].
    destruct (Hq q E) as [p Ep]. apply dget_In in Ep. apply (in_map fst) in Ep. exact Ep. }
  assert (B : forall x, but qs x = K x).
  { intros x. destruct (K x) eqn:E.
    - destruct (but qs x) eqn:Eb; [reflexivity|]. apply but_in, Q in Eb. congruence.
    - apply but_in, Q, E. }
  destruct (parts_removed _ F G e d steps C L w st rep w1 Wf Sep Hs qs) as [w2 E].
  - apply NoDup_filter, Wf.
  - intros q. apply Q.
  - intros q H'. apply Hq, Q, H'.
  - intros n c q En H'. apply (Hc n c q En), Q, H'.
  - exists w2. rewrite (keep_ext _ K d B) in E.
    replace (map (measuring (but qs)) steps) with (map (measuring K) steps) in E.
    2:{ apply map_ext. intros [m| |]; try reflexivity. cbn [measuring]. now rewrite (keep_ext _ K _ B). }
    rewrite E. f_equal. f_equal. f_equal.
    + unfold state_part. now rewrite !(keep_ext _ K _ B).
    + unfold report_part. rewrite (keep_ext _ K _ B). f_equal. apply filter_ext. intros x. apply B.
Qed.

(** The kept part of two orders of the same parameters, when at most one is kept. *)
Lemma keep_one K (d d' : device V) n :
  reordered d d' -> (forall x, dget d x <> None -> K x = true -> x = n) -> keep K d = keep K d'.
Proof.
  assert (One : forall (a : device V), dwf a -> (forall x, dget a x <> None -> K x = true -> x = n) ->
            keep K a = match dget a n with Some p => if K n then [(n, p)] else [] | None => [] end).
  { induction a as [|[k p] a IH]; [reflexivity|]. intros Wf U.
    pose proof Wf as Wf'. apply NoDup_cons_iff in Wf' as [Hk Wa]. cbn [fst] in Hk.
    assert (Ha : forall x, dget a x <> None -> K x = true -> x = n).
    { intros x Hx Kx. apply U; [|exact Kx]. cbn [dget]. destruct (String.eqb_spec x k) as [->|_]; [discriminate|exact Hx]. }
    specialize (IH Wa Ha). unfold keep in *. cbn [filter fst dget]. destruct (K k) eqn:Ek.
    - assert (k = n) as ->.
      { apply U; [|exact Ek]. cbn [dget]. rewrite String.eqb_refl. discriminate. }
      rewrite String.eqb_refl, Ek, IH.
      replace (dget a n) with (@None (prm V)); [reflexivity|].
      destruct (dget a n) eqn:E; [|reflexivity]. apply dget_In in E. apply (in_map fst) in E. contradiction.
    - rewrite IH. destruct (String.eqb_spec n k) as [->|_]; [|reflexivity].
      rewrite Ek. now destruct (dget a k). }
  intros (W & W' & E) U. rewrite (One d W U), (One d' W'), E; [reflexivity|].
  intros x Hx. apply U. now rewrite E.
Qed.

Lemma separate_reordered S F G (e : env V) (d d' : device V) l :
  reordered d d' -> separate S F G e d l -> separate S F G e d' l.
Proof.
  intros (_ & _ & E) (A & B & C & D1 & D2 & D3). split; [|split; [|split]].
  - intros n x Hx. apply A. now rewrite E.
  - intros n n' g Sn Hn Hn'. rewrite <- E in Hn, Hn'. now apply B.
  - intros n g Sn Hn. rewrite <- E in Hn. now apply C.
  - split; [exact D1|split; [exact D2|]]. intros m x Hm Hx Hd. rewrite <- E in Hd. exact (D3 m x Hm Hx Hd).
Qed.

Lemma order_free F G (e : env V) (d d' : device V) steps C L w st rep w1 st' rep' w1' :
  reordered d d' -> separate (fun _ => True) F G e d steps ->
  (forall n x, dget d n = Some x -> exists p, x = PDeg p) ->
  simulate e d steps C L None w = (Ok (st, rep), w1) ->
  simulate e d' steps C L None w = (Ok (st', rep'), w1') ->
  st_elapsed st = st_elapsed st' /\ rp_sum rep = rp_sum rep' /\
  forall n, dget (st_prm st) n = dget (st_prm st') n /\ dget (st_prm0 st) n = dget (st_prm0 st') n /\
    dget (st_mech st) n = dget (st_mech st') n /\ dget (st_mech0 st) n = dget (st_mech0 st') n /\
    dget (st_lat st) n = dget (st_lat st') n /\ dget (rp_counts rep) n = dget (rp_counts rep') n /\
    rows_of n rep = rows_of n rep'.
Proof.
  intros Re Sep Dg S1 S2. pose proof Re as (W & W' & E).
  assert (Sep' : forall K : string -> bool, separate (fun n => K n = false) F G e d steps).
  { intros K. destruct Sep as (A & B & C' & D'). split; [exact A|split; [|split; [|exact D']]].
    - intros n n' g _. now apply B.
    - intros n g _. now apply C'. }
  assert (X : forall n, state_part (fun x => String.eqb x n || negb (existsb (String.eqb x) (dkeys d))) st =
                        state_part (fun x => String.eqb x n || negb (existsb (String.eqb x) (dkeys d))) st' /\
                        report_part (fun x => String.eqb x n || negb (existsb (String.eqb x) (dkeys d))) rep =
                        report_part (fun x => String.eqb x n || negb (existsb (String.eqb x) (dkeys d))) rep').
  { intros n. set (K := fun x => String.eqb x n || negb (existsb (String.eqb x) (dkeys d))).
    assert (Ks : forall x, K x = false -> dget d x <> None).
    { intros x Kx. unfold K in Kx. apply Bool.orb_false_iff in Kx as [_ Kx].
      apply Bool.negb_false_iff, existsb_exists in Kx as (y & Hy & Ey). apply String.eqb_eq in Ey as <-.
      intros Nn. exact (proj1 (dget_None_keys d x) Nn Hy). }
    assert (Kd : forall x, dget d x <> None -> K x = true -> x = n).
    { intros x Hx Kx. unfold K in Kx. apply Bool.orb_true_iff in Kx as [Kx|Kx]; [now apply String.eqb_eq|].
      apply Bool.negb_true_iff in Kx. exfalso. destruct (dget d x) eqn:Ex; [|now apply Hx].
      apply dget_In in Ex. apply (in_map fst) in Ex. cbn [fst] in Ex.
      assert (existsb (String.eqb x) (dkeys d) = true); [|congruence].
      apply existsb_exists. exists x. split; [exact Ex|apply String.eqb_refl]. }
    assert (Kp : forall q, K q = false -> exists p, dget d q = Some (PDeg p)).
    { intros q Kq. apply Ks in Kq. destruct (dget d q) as [x|] eqn:Eq; [|now destruct Kq].
      destruct (Dg q x Eq) as [p ->]. now exists p. }
    assert (Nc : forall n c q, dget d n = Some (PCirc c) -> K q = false -> ~ In q (compute_args (lm_eqn c))).
    { intros m c q Em. destruct (Dg m _ Em) as [p Ep]. discriminate Ep. }
    destruct (part_alone F G K e d steps C L w st rep w1 W (Sep' K) Kp Nc S1) as [w2 A].
    destruct (part_alone F G K e d' steps C L w st' rep' w1' W' (separate_reordered _ _ _ _ _ _ _ Re (Sep' K))) as [w2' A'].
    - intros q Kq. rewrite <- E. now apply Kp.
    - intros m c q Em. rewrite <- E in Em. exact (Nc m c q Em).
    - exact S2.
    - rewrite <- (keep_one K d d' n Re Kd) in A'. rewrite A in A'. injection A' as E1 E2 E3 E4 E5 E6 E7 E8 E9 E10 E11 E12.
      unfold state_part, report_part. split; f_equal; assumption. }
  pose proof (X EmptyString) as [X1 X2]. injection X1 as X1 _ _ _ _ _. injection X2 as _ _ _ _ X2.
  split; [exact X1|split; [exact X2|]]. intros n. destruct (X n) as [Y1 Y2]. clear X1 X2.
  set (K := fun x => String.eqb x n || negb (existsb (String.eqb x) (dkeys d))) in *.
  assert (Kn : K n = true) by (unfold K; rewrite String.eqb_refl; reflexivity).
  assert (Z : forall A (a b : dict A), keep K a = keep K b -> dget a n = dget b n).
  { intros A a b Eab. apply (f_equal (fun z => dget z n)) in Eab. rewrite !keep_dget, Kn in Eab. exact Eab. }
  injection Y1 as _ P1 P2 P3 P4 P5. injection Y2 as _ _ P6 P7 _.
  repeat split; try (apply Z; assumption).
  unfold rows_of.
  assert (Fr : forall l : list (row V), filter (fun x => String.eqb (r_param x) n) l =
              filter (fun x => String.eqb (r_param x) n) (filter (fun x => K (r_param x)) l)).
  { intros l. rewrite filter_filter. apply filter_ext. intros x. unfold K.
    destruct (String.eqb (r_param x) n); cbn; [reflexivity|now rewrite Bool.andb_false_r]. }
  rewrite (Fr (rp_meas rep)), (Fr (rp_meas rep')), P7. reflexivity.
Qed.
End Parts.
