(** Means, variances and correlations of the values of a generated state. *)
From Coq Require Import Reals Qreals List Lia Lra Bool String FunctionalExtensionality.
From Coq.micromega Require RMicromega.
From Verif Require Import M_Base M_Num M_NumR M_Nd M_RandVar M_Latent M_Time M_TestSpec M_Device M_Env S_Latent S_Sim
  L_Base L_Latent L_Device L_Sim L_Sim3 S_Moments L_Moments L_Moments2 S_Moments2 L_Moments4.
Import ListNotations.
Open Scope R_scope.

Section Sub.
Context {G : Rng R} {Om : Type} (E : (Om -> R) -> R) (HE : expectation E).

(** ** Part of a plan *)
Lemma draw_sub pre mid post (w : Om -> world) k o : (k < length mid)%nat ->
  draw mid (fun om => after pre (w om)) k o = draw (pre ++ mid ++ post) w (length pre + k) o.
Proof.
  intros Hk. unfold draw. rewrite !tape_app. rewrite app_nth2; rewrite tape_length; [|lia].
  replace (length pre + k - length pre)%nat with k by lia. rewrite app_nth1 by (now rewrite tape_length). reflexivity.
Qed.
Lemma distributed_sub pre mid post (w : Om -> world) : distributed E (pre ++ mid ++ post) w -> distributed E mid (fun om => after pre (w om)).
Proof.
  intros K i g p Hi. assert (Hl : (i < length mid)%nat) by (apply nth_error_Some; congruence).
  destruct (K (length pre + i)%nat g p) as [K1 K2].
  { rewrite nth_error_app2 by lia. replace (length pre + i - length pre)%nat with i by lia. now rewrite nth_error_app1. }
  unfold var in *. split; [rewrite <- K1|rewrite <- K2].
  - apply (E_ext E HE). intros o. now apply draw_sub.
  - apply (cov_ext E HE); intros o; now apply draw_sub.
Qed.
Lemma product_split a b f : product (a + b) f = product a f * product b (fun i => f (a + i)%nat).
Proof.
  induction b as [|b IH]; cbn [product].
  - rewrite Nat.add_0_r. ring.
  - rewrite Nat.add_succ_r. cbn [product]. rewrite IH. ring.
Qed.
Lemma independent_sub pre mid post (w : Om -> world) : independent E (pre ++ mid ++ post) w -> independent E mid (fun om => after pre (w om)).
Proof.
  intros K f. set (m := length mid). set (n := length pre).
  set (F := fun k => if (n <=? k)%nat && (k <? n + m)%nat then f (k - n)%nat else fun _ => 1).
  assert (P : forall h : nat -> (R -> R) -> R, (forall k, h k (fun _ => 1) = 1) ->
    product (length (pre ++ mid ++ post)) (fun k => h k (F k)) = product m (fun i => h (n + i)%nat (f i))).
  { intros h Hh. rewrite !app_length. fold m. fold n. rewrite product_split, product_split.
    rewrite (product_ext n _ (fun _ => 1)), product_one.
    2:{ intros k Hk. unfold F. destruct (Nat.leb_spec n k); [lia|]. apply Hh. }
    rewrite (product_ext (length post) _ (fun _ => 1)), product_one.
    2:{ intros k Hk. unfold F. destruct (Nat.ltb_spec (n + (m + k))%nat (n + m)%nat); [lia|]. rewrite andb_false_r. apply Hh. }
    rewrite (product_ext m _ (fun i => h (n + i)%nat (f i))).
    - ring.
    - intros k Hk. unfold F. destruct (Nat.leb_spec n (n + k)); [|lia]. destruct (Nat.ltb_spec (n + k) (n + m)); [|lia].
      cbn [andb]. do 2 f_equal. lia. }
  specialize (K F).
  rewrite (E_ext E HE _ (fun o => product m (fun i => f i (draw (pre ++ mid ++ post) w (n + i)%nat o)))) in K.
  2:{ intros o. exact (P (fun k g => g (draw (pre ++ mid ++ post) w k o)) (fun _ => eq_refl)). }
  rewrite (P (fun k g => E (fun o => g (draw (pre ++ mid ++ post) w k o)))) in K.
  2:{ intros k. exact (E_const E HE 1). }
  etransitivity; [|etransitivity; [exact K|]].
  - apply (E_ext E HE). intros o. apply product_ext. intros i Hi. f_equal. now apply draw_sub.
  - apply product_ext. intros i Hi. apply (E_ext E HE). intros o. f_equal. symmetry. now apply draw_sub.
Qed.

(** ** Sums of products of draws of a part *)
Section Span.
Variables (plan : list (nat * npdist R)) (w : Om -> world).
Inductive span (lo hi : nat) : (Om -> R) -> Prop :=
| sp_prods c kvs f : NoDup (map fst kvs) -> (forall k, In k (map fst kvs) -> (lo <= k < hi)%nat) ->
    (forall o, f o = c * prods plan w kvs o) -> span lo hi f
| sp_plus f g h : span lo hi f -> span lo hi g -> (forall o, h o = f o + g o) -> span lo hi h.

Lemma nodup_two {A} (a b : list A) : NoDup a -> NoDup b -> (forall k, In k a -> ~ In k b) -> NoDup (a ++ b).
Proof.
  induction a as [|x a IH]; intros Na Nb D; cbn [app]; [exact Nb|]. inversion Na; subst. constructor.
  - rewrite in_app_iff. intros [K|K]; [contradiction|]. exact (D x (or_introl eq_refl) K).
  - apply IH; auto. intros k Hk. apply D. now right.
Qed.
Lemma span_cov lo hi lo' hi' f g : independent E plan w -> (hi <= lo')%nat -> (hi <= length plan)%nat -> (hi' <= length plan)%nat ->
  span lo hi f -> span lo' hi' g -> cov E f g = 0.
Proof.
  intros Ki Ho Hl Hl' Sf Sg. induction Sf as [c kvs f N I Ef|f1 f2 f S1 I1 S2 I2 Ef].
  - induction Sg as [c' kvs' g N' I' Eg|g1 g2 g S1 I1 S2 I2 Eg].
    + unfold cov.
      rewrite (E_ext E HE (fun o => f o * g o) (fun o => c * c' * prods plan w (kvs ++ kvs') o)) by (intros o; rewrite Ef, Eg, prods_app; ring).
      rewrite (E_ext E HE f _ Ef), (E_ext E HE g _ Eg).
      rewrite (E_scal E HE (c * c') (prods plan w (kvs ++ kvs'))), (E_scal E HE c (prods plan w kvs)), (E_scal E HE c' (prods plan w kvs')).
      rewrite !(independent_prods E HE plan w) by first [exact Ki|exact N|exact N'|intros k Hk; (apply I in Hk || apply I' in Hk); lia
        |rewrite map_app; apply nodup_two; [exact N|exact N'|intros k Hk Hk'; apply I in Hk; apply I' in Hk'; lia]
        |intros k Hk; rewrite map_app in Hk; apply in_app_or in Hk as [Hk|Hk]; [apply I in Hk|apply I' in Hk]; lia].
      rewrite exps_app. ring.
    + rewrite (cov_ext E HE f f g (fun o => g1 o + g2 o)) by auto. rewrite (cov_plus_r E HE), I1, I2. ring.
  - rewrite (cov_ext E HE f (fun o => f1 o + f2 o) g g) by auto. rewrite (cov_plus_l E HE), I1, I2. ring.
Qed.
End Span.

(** ** One variable *)
Definition as_told (o : lvar R) (t : vtype) : told R := Told t (lv_deter o) (Some (lv_dev o)) (Some (lv_chp o)) (Some (lv_lot o)).
Definition flagged (o : lvar R) (t : vtype) : lvar R :=
  LVar (lv_name o) (Some t) (lv_deter o) (unit_of t) (Some t) (lv_dev o) true (lv_chp o) true (lv_lot o) true.
Lemma flagged_rep o t : lv_rep (flagged o t) (as_told o t).
Proof. unfold lv_rep, flagged, as_told. cbn. repeat split; reflexivity. Qed.
Lemma flagged_gen o t D C L w : lv_op o = Some t -> gen_latent (flagged o t) D C L w = gen_latent o D C L w.
Proof. intros K. unfold gen_latent, flagged. cbn [lv_lot lv_chp lv_dev lv_op lv_deter]. rewrite K. reflexivity. Qed.
Lemma as_told_plan o t D C L : latent_plan (as_told o t) D C L = object_plan o D C L.
Proof. reflexivity. Qed.

Lemma variable_moments o D C L pre post plan (w : Om -> world) : plan = pre ++ object_plan o D C L ++ post -> samplable o ->
  distributed E plan w -> independent E plan w ->
  let sample := fun i om => at3 C D (fst (gen_latent o D C L (after pre (w om)))) i in
  forall i j, inside D C L i -> inside D C L j -> E (sample i) = var_mean o /\ cov E (sample i) (sample j) = var_cov o i j.
Proof.
  intros -> (Ht & Al & Ac & Ad) Ds Ki sample i j Hi Hj. destruct (lv_op o) as [t|] eqn:Eo; [clear Ht|contradiction].
  apply distributed_sub in Ds. apply independent_sub in Ki.
  assert (Es : forall i, sample i = fun om => at3 C D (fst (gen_latent (flagged o t) D C L (after pre (w om)))) i).
  { intros k. unfold sample. apply functional_extensionality. intros om. now rewrite flagged_gen. }
  rewrite !Es. unfold var_mean, var_cov. rewrite Eo. destruct t.
  - destruct (latent_scaling E HE (fun om => after pre (w om)) (flagged o Scaling) (as_told o Scaling) D C L (flagged_rep _ _) Ad Ac Al eq_refl Ds Ki i j Hi Hj) as [M1 M2].
    destruct (latent_scaling E HE (fun om => after pre (w om)) (flagged o Scaling) (as_told o Scaling) D C L (flagged_rep _ _) Ad Ac Al eq_refl Ds Ki j j Hj Hj) as [M3 _].
    split; [exact M1|]. unfold cov. cbv beta in M1, M2, M3 |- *. rewrite M2, M1, M3. cbn [as_told t_deter t_lot t_chp t_dev layer_dist]. ring.
  - exact (latent_offset E HE (fun om => after pre (w om)) (flagged o Offset) (as_told o Offset) D C L (flagged_rep _ _) Ad Ac Al eq_refl Ds
             (independent_uncorrelated E HE _ _ Ki) i j Hi Hj).
Qed.

Lemma variable_span o D C L pre post plan (w : Om -> world) i : plan = pre ++ object_plan o D C L ++ post -> samplable o -> inside D C L i ->
  span plan w (length pre) (length pre + length (object_plan o D C L)) (fun om => at3 C D (fst (gen_latent o D C L (after pre (w om)))) i).
Proof.
  intros Ep (Ht & Al & Ac & Ad) Hi. destruct (lv_op o) as [t|] eqn:Eo; [clear Ht|contradiction].
  set (s := as_told o t). set (w' := fun om => after pre (w om)). set (sub := object_plan o D C L).
  set (dl := rv_dist (lv_lot o)). set (dc := rv_dist (lv_chp o)). set (dd := rv_dist (lv_dev o)).
  set (off2 := length (layer_plan Offset (Some (lv_lot o)) L)). set (off3 := (off2 + length (layer_plan Offset (Some (lv_chp o)) (L * C)))%nat).
  destruct (latent_placed s D C L Ad Ac Al) as (Pl & Pc & Pd).
  change (placed sub dl 0 L) in Pl. change (placed sub dc off2 (L * C)) in Pc. change (placed sub dd off3 (L * C * D)) in Pd.
  destruct Hi as (Hi1 & Hi2 & Hi3).
  set (k1 := fst (fst i)) in *. set (k2 := (k1 * C + snd (fst i))%nat). set (k3 := (k2 * D + snd i)%nat).
  assert (B2 : (k2 < L * C)%nat) by (unfold k2; nia).
  assert (B3 : (k3 < L * C * D)%nat) by (unfold k3; nia).
  assert (Sl : (0 + size dl L <= off2)%nat) by (unfold off2; rewrite layer_plan_length; cbn [layer_dist]; fold dl; lia).
  assert (Sc : (off2 + size dc (L * C) <= off3)%nat) by (unfold off3; rewrite layer_plan_length; cbn [layer_dist]; fold dc; lia).
  assert (Sd : (off3 + size dd (L * C * D) = length sub)%nat).
  { unfold sub, object_plan. rewrite !app_length. fold off2. unfold off3. pose proof (layer_plan_length Offset (Some (lv_dev o)) (L * C * D)) as Kd. cbn [layer_dist] in Kd. fold dd in Kd. lia. }
  assert (V : forall d off n k om, placed sub d off n -> (k < n)%nat ->
     value sub w' d off k om = value plan w d (length pre + off) k om).
  { intros d off n k om [_ P] Hk. unfold value. destruct (request d) as [p|] eqn:Er; [|reflexivity]. destruct (P p eq_refl) as [P1 _].
    unfold w'. rewrite Ep. rewrite (draw_sub pre sub post w) by lia. f_equal. lia. }
  assert (Q : forall d off n k, placed sub d off n -> (k < n)%nat -> forall x, In x (map fst (once d (length pre + off) k)) ->
     (length pre + off <= x < length pre + off + size d n)%nat).
  { intros d off n k _ Hk x. unfold once, size. destruct (request d); cbn [map fst In]; [intros [<-|[]]; lia|intros []]. }
  assert (F : forall om, at3 C D (fst (gen_latent o D C L (after pre (w om)))) i =
     S_Latent.combine t (S_Latent.combine t (match lv_deter o with
        | Some v => S_Latent.combine t v (value plan w dd (length pre + off3) k3 om) | None => value plan w dd (length pre + off3) k3 om end)
        (value plan w dc (length pre + off2) k2 om)) (value plan w dl (length pre + 0) k1 om)).
  { intros om. rewrite <- (flagged_gen o t) by exact Eo.
    destruct (gen_latent_values w' (flagged o t) s D C L (flagged_rep o t) Ad Ac Al om) as (a & Ea & _ & _ & Ka).
    unfold w' in Ea. rewrite Ea. specialize (Ka i (conj Hi1 (conj Hi2 Hi3))). etransitivity; [exact Ka|].
    rewrite <- (V dd off3 _ k3 om Pd B3), <- (V dc off2 _ k2 om Pc B2), <- (V dl 0%nat _ k1 om Pl Hi1). reflexivity. }
  assert (U : forall d off n k, placed sub d off n -> (k < n)%nat -> (off + size d n <= length sub)%nat ->
     span plan w (length pre) (length pre + length sub) (value plan w d (length pre + off) k)).
  { intros d off n k P Hk Hs. apply (sp_prods plan w _ _ (fixed d) (once d (length pre + off) k)).
    - apply once_nodup.
    - intros x Hx. apply (Q d off n k P Hk) in Hx. lia.
    - intros om. apply once_value. }
  pose proof (U dl 0%nat L k1 Pl Hi1 ltac:(lia)) as Ul. pose proof (U dc off2 _ k2 Pc B2 ltac:(lia)) as Uc. pose proof (U dd off3 _ k3 Pd B3 ltac:(lia)) as Ud.
  destruct t.
  - apply (sp_prods plan w _ _ (match lv_deter o with Some v => v | None => 1 end * fixed dl * fixed dc * fixed dd)
      (once dl (length pre + 0) k1 ++ once dc (length pre + off2) k2 ++ once dd (length pre + off3) k3)).
    + rewrite !map_app. apply nodup_two; [apply once_nodup|apply nodup_two; [apply once_nodup|apply once_nodup|]|].
      * intros x Hx Hy. apply (Q dc off2 _ k2 Pc B2) in Hx. apply (Q dd off3 _ k3 Pd B3) in Hy. lia.
      * intros x Hx Hy. apply (Q dl 0%nat L k1 Pl Hi1) in Hx. rewrite in_app_iff in Hy. destruct Hy as [Hy|Hy].
        -- apply (Q dc off2 _ k2 Pc B2) in Hy. lia.
        -- apply (Q dd off3 _ k3 Pd B3) in Hy. lia.
    + intros x Hx. rewrite !map_app, !in_app_iff in Hx. destruct Hx as [Hx|[Hx|Hx]].
      * apply (Q dl 0%nat L k1 Pl Hi1) in Hx. lia.
      * apply (Q dc off2 _ k2 Pc B2) in Hx. lia.
      * apply (Q dd off3 _ k3 Pd B3) in Hx. lia.
    + intros om. rewrite F, !once_value, !prods_app. destruct (lv_deter o); cbn [S_Latent.combine]; cbn; ring.
  - apply (sp_plus plan w _ _ (fun om => match lv_deter o with Some v => v | None => 0 end + value plan w dd (length pre + off3) k3 om)
      (fun om => value plan w dc (length pre + off2) k2 om + value plan w dl (length pre + 0) k1 om)).
    + apply (sp_plus plan w _ _ (fun _ => match lv_deter o with Some v => v | None => 0 end) (value plan w dd (length pre + off3) k3)); [|exact Ud|reflexivity].
      apply (sp_prods plan w _ _ (match lv_deter o with Some v => v | None => 0 end) []); [constructor|intros ? []|intros om; cbn [prods]; ring].
    + apply (sp_plus plan w _ _ (value plan w dc (length pre + off2) k2) (value plan w dl (length pre + 0) k1)); [exact Uc|exact Ul|reflexivity].
    + intros om. rewrite F. destruct (lv_deter o); cbn [S_Latent.combine]; cbn; ring.
Qed.
End Sub.
