(** The numbers in the table of measurements (C72). *)
From Coq Require Import Lia Arith.
From Verif Require Import M_Base M_Num M_Nd M_RandVar M_Latent M_Time M_TestSpec M_Minimize M_Device M_Report M_Env M_Sim
  S_Latent S_TestSpec S_Device S_Env S_Sim S_Report S_Sum S_Shape S_Value S_Reading
  L_Base L_Nd L_Latent L_TestSpec L_Device L_Device2 L_Device3 L_Env L_Env2 L_Env3 L_Sim L_Sim2 L_Sim3 L_Report L_Sum L_Shape L_Shape2 S_Total L_Total L_Total2 L_Value L_Export.
Open Scope nat_scope.

Section L.
Context {V : Type} `{NumOps V} `{Rng V} `{HashOrd}.

(** ** Cutting *)
Lemma flat_get (a : nd V) L C n l c k : nshape a = [L; C; n] -> length (ndata a) = L * C * n -> l < L -> c < C -> k < n ->
  nth_error (ndata a) ((l * C + c) * n + k) = Some (aget a [l; c; k]).
Proof.
  intros Sa La Hl Hc Hk. assert (Wa : awf a) by (unfold awf; rewrite Sa; cbn; lia).
  assert (E := ndata_aget a [l; c; k] Wa ltac:(rewrite Sa; apply valid3; lia)).
  rewrite Sa in E. cbn [flat prod fold_right] in E. now rewrite flat3 in E.
Qed.

Lemma slice_cut k L C n (a b : nd V) : nshape a = [L; C; n] -> length (ndata a) = L * C * n -> k <= n -> nslice_third k a = Ok b -> cut k (PArr a) (PArr b).
Proof.
  intros Sa La Hk E. destruct (slice_shape _ _ _ _ _ _ Sa Hk E) as (b' & Q & Sb & Lb). injection Q as <-.
  apply nslice_third_get in E as (Wb & x & y & z & r & Q & Sb' & G). apply (ct_arr k a b L C n); auto.
  intros l c dd Hl Hc Hd. specialize (G [l; c; dd]). rewrite Sb in G. specialize (G ltac:(apply valid3; auto)).
  rewrite (flat_get a L C n), (flat_get b L C k) by (auto; lia). now rewrite G.
Qed.

Lemma cut_self k L C (a : nd V) : nshape a = [L; C; k] -> length (ndata a) = L * C * k -> cut k (PArr a) (PArr a).
Proof. intros Sa La. apply (ct_arr k a a L C k); auto. Qed.

Lemma reduce_cut k L C n (v : pyval V) o : shaped L C n v -> k <= n -> reduce_val k v = Ok o -> exists u, o = Some u /\ cut k v u.
Proof.
  intros (a & -> & A1 & A2) Hk E. cbn [reduce_val] in E. apply rbind_ok in E as (b & E & Q). injection Q as <-. exists (PArr b). split; auto.
  eapply slice_cut; eauto.
Qed.

Lemma reduce_cut_flat k L C n (d : dict (pyval V)) : (forall x v, In (x, v) d -> shaped L C n v) -> k <= n ->
  forall d', reduce_dims k d = Ok d' -> cut_all k d d'.
Proof.
  intros S Hk. induction d as [|[x v] d IH]; intros d' E; cbn [reduce_dims] in E; [injection E as <-; constructor|].
  apply rbind_ok in E as (o & E1 & E). apply rbind_ok in E as (r & E2 & E). destruct (reduce_cut k L C n v o) as (u & -> & Cu); auto; [apply (S x); now left|].
  injection E as <-. constructor; auto. apply IH; auto. intros; eapply S; right; eauto.
Qed.

Lemma reduce_cut_all (p : degprm V) k L C n (d : dict (pyval V)) : lats_fit p L C n d -> k <= n ->
  forall d', reduce_dims k d = Ok d' -> cut_all k d d'.
Proof.
  intros S Hk. induction d as [|[x v] d IH]; intros d' E; cbn [reduce_dims] in E; [injection E as <-; constructor|].
  apply rbind_ok in E as (o & E1 & E). apply rbind_ok in E as (r & E2 & E).
  assert (X : exists u, o = Some u /\ cut k v u).
  { destruct (S x v) as [Sv|(_ & l & -> & Sl)]; [now left|eapply reduce_cut; eauto|].
    apply reduce_val_dict in E1 as (l' & -> & E1). exists (PDict l'). split; auto. constructor. eapply reduce_cut_flat; eauto. }
  destruct X as (u & -> & Cu). injection E as <-. constructor; auto. apply IH; auto. intros y w Hy. apply S. now right.
Qed.

Lemma cut_self_flat L C n (d : dict (pyval V)) : (forall x v, In (x, v) d -> shaped L C n v) -> cut_all n d d.
Proof.
  induction d as [|[x v] d IH]; intros S; constructor; [|apply IH; intros; eapply S; right; eauto].
  destruct (S x v) as (a & -> & A1 & A2); [now left|]. eapply cut_self; eauto.
Qed.
Lemma cut_self_all (p : degprm V) L C n (d : dict (pyval V)) : lats_fit p L C n d -> cut_all n d d.
Proof.
  induction d as [|[x v] d IH]; intros S; constructor; [|apply IH; intros y w Hy; apply S; now right].
  destruct (S x v) as [(a & -> & A1 & A2)|(_ & l & -> & Sl)]; [now left|eapply cut_self; eauto|]. constructor. eapply cut_self_flat; eauto.
Qed.

(** ** Conditionally shifted values *)
Lemma unitary_get k (l : dict (mech V)) : dwf l -> forall acc : dict (pyval V),
  dget (fold_left (fun acc (nm : string * mech V) => dset acc (fst nm) (PNum (mc_unitary (snd nm)))) l acc) k =
  match dget l k with Some m => Some (PNum (mc_unitary m)) | None => dget acc k end.
Proof.
  induction l as [|[x m] l IH]; intros W acc; cbn [fold_left fst snd]; auto. inversion W as [|? ? N W']; subst. rewrite IH by auto.
  cbn [dget]. destruct (String.eqb_spec k x) as [->|Ne].
  - rewrite (proj2 (dget_None_keys l x)) by exact N. now rewrite dget_dset_eq.
  - destruct (dget l k); auto. rewrite dget_dset_neq; auto.
Qed.

Lemma unitary_keys_list (l : dict (mech V)) : dwf l -> forall acc : dict (pyval V), (forall x, In x (dkeys l) -> ~ In x (dkeys acc)) ->
  dkeys (fold_left (fun acc (nm : string * mech V) => dset acc (fst nm) (PNum (mc_unitary (snd nm)))) l acc) = dkeys acc ++ dkeys l.
Proof.
  induction l as [|[x m] l IH]; intros W acc D; cbn [fold_left fst snd]; [cbn; now rewrite app_nil_r|]. inversion W as [|? ? N W']; subst.
  assert (Nx : ~ In x (dkeys acc)) by (apply D; now left).
  assert (K : dkeys (dset acc x (PNum (mc_unitary m))) = dkeys acc ++ [x]).
  { rewrite dset_app_new by exact Nx. unfold dkeys. now rewrite map_app. }
  rewrite IH; auto.
  - rewrite K, <- app_assoc. reflexivity.
  - intros y Hy. rewrite K. intros Q. apply in_app_or in Q as [Q|[<-|[]]]; [|contradiction]. apply (D y); auto. now right.
Qed.

Lemma add_own_keys names (ls : dict (pyval V)) : forall acc, exists rest, dkeys (add_own names ls acc) = dkeys acc ++ rest.
Proof.
  induction names as [|x r IH]; intros acc; cbn [add_own]; [exists []; now rewrite app_nil_r|].
  destruct (dmem acc x) eqn:D; [apply IH|]. destruct (dget ls x) as [v|]; [|apply IH].
  destruct (IH (dset acc x v)) as (rest & ->). exists (x :: rest). rewrite dset_app_new; [unfold dkeys; rewrite map_app, <- app_assoc; reflexivity|].
  intros Hx. apply dmem_keys in Hx. congruence.
Qed.

Lemma cond_shifted_truth (p : degprm V) cs deg ls L C n k w v w' : numeric_at L C k (lm_eqn (dp_cond p)) -> follows_at L C k (lm_eqn (dp_own p)) -> dwf (dp_mechs p) ->
  ~ In "init"%string (dkeys (dp_mechs p)) -> ~ In "cond"%string (dkeys (dp_mechs p)) ->
  operand L C n deg -> lats_fit p L C n ls -> operands L C k cs -> k <= n ->
  cond_shifted p cs deg ls L C k w = (Ok v, w') ->
  exists current lats' cl cargs shift args w2,
    cut k deg current /\ cut_all k ls lats' /\ dget lats' "cond" = Some (PDict cl) /\ lats_fit p L C k lats' /\
    (forall x, dget cargs x = if smem x (compute_args (lm_eqn (dp_cond p))) then first_of [cl; cs] x else None) /\ dwf cargs /\ operands L C k cargs /\
    call_or_loop (lm_eqn (dp_cond p)) cargs L C k w = (Ok shift, w2) /\ operand L C k shift /\
    shifted_args p current shift lats' args /\ operands L C k args /\
    call_or_loop (lm_eqn (dp_own p)) args L C k w2 = (Ok v, w').
Proof.
  intros Nc Ro Wm Ni Ncd Hd Fl Oc Hk E. unfold cond_shifted in E. apply bind_lift_ok in E as (n' & E0 & E).
  destruct Hd as [[y ->]|(a & -> & A1 & A2)]; [discriminate|]. cbn [third_dim] in E0. rewrite A1 in E0. cbn in E0. injection E0 as <-.
  apply bind_lift_ok in E as ([args1 ls1] & E1 & E). cbn [fst snd] in E.
  assert (X : (exists b, shaped L C k (PArr b) /\ cut k (PArr a) (PArr b) /\ args1 = [("init"%string, PArr b); ("cond"%string, PDict [])]) /\
              lats_fit p L C k ls1 /\ cut_all k ls ls1).
  { destruct (Nat.ltb_spec k n).
    - apply rbind_ok in E1 as (a1 & Ea & E1). apply rbind_ok in E1 as (l1 & El & E1). injection E1 as <- <-.
      split; [|split; [eapply reduce_lats; eauto|eapply reduce_cut_all; eauto]].
      cbn [reduce_dims] in Ea. apply rbind_ok in Ea as (o & Eo & Ea).
      pose proof (reduce_cut _ L C n _ _ (ex_intro _ a (conj eq_refl (conj A1 A2))) Hk Eo) as (u' & Q' & Cu).
      destruct (reduce_val_shaped _ L C n _ _ Hk (ex_intro _ a (conj eq_refl (conj A1 A2))) Eo) as (u & -> & S). injection Q' as <-. destruct S as (b & -> & B).
      cbn in Ea. injection Ea as <-. exists b. split; [exists b|]; auto.
    - injection E1 as <- <-. assert (k = n) by lia. subst k. split; [|split; [auto|eapply cut_self_all; eauto]].
      exists a. split; [exists a; auto|]. split; [eapply cut_self; eauto|auto]. }
  destruct X as [(b & Sb & Cb & ->) [F1 Cl]]. apply bind_lift_ok in E as (cl & E2 & E). apply bind_ok in E as (cv & w2 & E3 & E).
  apply rbind_ok in E2 as (q & E2 & E4). apply dgetE_ok in E2. destruct q; try discriminate. injection E4 as ->.
  unfold calc_cond_vals in E3. set (cargs := gather _ _ _) in E3.
  assert (Wc : dwf cargs) by (apply gather_wf; constructor).
  assert (Oca : operands L C k cargs) by (apply gather_operands; auto using operands_nil; eapply latent_operands; eauto).
  assert (Gc : forall x, dget cargs x = if smem x (compute_args (lm_eqn (dp_cond p))) then first_of [cl; cs] x else None).
  { intros x. unfold cargs. rewrite gather_get. destruct (smem _ _); [|reflexivity]. now destruct (first_of _ _). }
  clearbody cargs. pose proof E3 as E3'. apply numeric_call in E3'; auto.
  cbn [dset String.eqb Ascii.eqb Bool.eqb] in E.
  set (args := add_own _ _ _) in E.
  assert (Wa : dwf args). { apply add_own_wf, unitary_wf. repeat constructor; cbn; intuition discriminate. }
  assert (Oa : operands L C k args).
  { eapply add_own_operands; [exact F1| |].
    - intros x [->|Hx]; apply unitary_keys; [left|now right]. reflexivity.
    - apply unitary_operands. intros x q [Q|[Q|[]]]; injection Q as <- <-; auto. now right. }
  exists (PArr b), ls1, cl, cargs, cv, args, w2. repeat (split; [assumption|]). split; [|split; assumption].
  split; auto; unfold args; [intros; rewrite add_own_get, unitary_get by auto..|].
  - rewrite (proj2 (dget_None_keys _ _) Ni). reflexivity.
  - rewrite (proj2 (dget_None_keys _ _) Ncd). reflexivity.
  - match goal with Hm : dget _ _ = Some _ |- _ => now rewrite Hm end.
  - match goal with Hx : ~ In ?y (dkeys (dp_mechs p)), Hy : ?y <> "cond"%string |- _ => rewrite (proj2 (dget_None_keys _ _) Hx); rename y into x end. cbn [dget].
    destruct (String.eqb_spec x "init"); [contradiction|]. destruct (String.eqb_spec x "cond"); [contradiction|]. reflexivity.
  - destruct (add_own_keys (compute_args (lm_eqn (dp_own p))) ls1 (fold_left (fun acc (nm : string * mech V) => dset acc (fst nm) (PNum (mc_unitary (snd nm))))
      (dp_mechs p) [("init"%string, PArr b); ("cond"%string, cv)])) as (rest & Kr).
    exists rest. rewrite Kr, unitary_keys_list; [reflexivity|auto|]. cbn. intros x Hx [<-|[<-|[]]]; contradiction.
Qed.

(** ** Readings *)
Lemma measure_reads e name (vals : list V) w ys w' : measure_with e name vals w = (Ok ys, w') -> read_with e name vals ys.
Proof.
  unfold measure_with. intros E. apply bind_lift_ok in E as (f & E1 & E). destruct f as [ins|]; [|discriminate].
  apply measure_ok in E as (Ln & es & R & G). exists ins. split.
  - unfold meas_instm in E1. destruct (dmem e "meas_instm"); [discriminate|]. destruct (dget e (name ++ "_instm")) as [[m|i]|]; try discriminate; [injection E1 as <-; auto|].
    destruct (String.eqb _ "meas_instm"); [discriminate|]. injection E1 as <-. right. auto.
  - split; auto. eauto.
Qed.

Lemma stamp_vals (rows : list (row V)) : forall vals, length vals = length rows ->
  map r_val (map (fun rv : row V * V => Row (r_param (fst rv)) (r_step (fst rv)) (r_dev (fst rv)) (r_chp (fst rv))
                           (r_lot (fst rv)) (r_time (fst rv)) (snd rv)) (List.combine rows vals)) = vals.
Proof. induction rows as [|r rows IH]; intros [|v vals] E; try discriminate; auto. cbn. f_equal. auto. Qed.

Lemma nth_error_ext' {A} (l : list A) : forall l', (forall k, nth_error l k = nth_error l' k) -> l = l'.
Proof.
  induction l as [|x l IH]; intros [|y l'] E; auto; [specialize (E 0); discriminate|specialize (E 0); discriminate|].
  f_equal; [specialize (E 0); cbn in E; congruence|]. apply IH. intros k. exact (E (S k)).
Qed.

Lemma split3 L C D i : i < L * C * D -> exists l c d, l < L /\ c < C /\ d < D /\ i = (l * C + c) * D + d.
Proof.
  intros Hi. assert (D <> 0) by nia. assert (C <> 0) by nia. exists (i / D / C), ((i / D) mod C), (i mod D).
  pose proof (Nat.div_mod i D ltac:(auto)). pose proof (Nat.div_mod (i / D) C ltac:(auto)).
  pose proof (Nat.mod_upper_bound i D ltac:(auto)). pose proof (Nat.mod_upper_bound (i / D) C ltac:(auto)).
  repeat split; auto; [|nia]. apply Nat.div_lt_upper_bound; auto. apply Nat.div_lt_upper_bound; auto. nia.
Qed.

Lemma format_vals a prm time stp L C D (rows : list (row V)) : layout (nshape a) L C D -> length (ndata a) = L * C * D ->
  format_measurements (PArr a) prm time stp true = Ok rows ->
  map r_val rows = ndata a /\ labelled L C D rows.
Proof.
  intros La Ln E. destruct (format_param a prm time stp L C D La Ln) as (rows' & E' & Lr & G). rewrite E in E'. injection E' as <-. split.
  - apply nth_error_ext'. intros i. rewrite nth_error_map. destruct (Nat.lt_ge_cases i (L * C * D)) as [Hi|Hi].
    + apply split3 in Hi as (l & c & d & Hl & Hc & Hd & ->). destruct (G _ _ _ Hl Hc Hd) as (v & Gv & ->). symmetry. exact Gv.
    + rewrite !(proj2 (nth_error_None _ _)) by lia. reflexivity.
  - split; auto. intros l c d Hl Hc Hd. destruct (G _ _ _ Hl Hc Hd) as (v & _ & ->). eexists. split; [reflexivity|]. auto.
Qed.

Lemma stamp_labelled L C k (rows : list (row V)) vals : length vals = length rows -> labelled L C k rows ->
  labelled L C k (map (fun rv : row V * V => Row (r_param (fst rv)) (r_step (fst rv)) (r_dev (fst rv)) (r_chp (fst rv))
                           (r_lot (fst rv)) (r_time (fst rv)) (snd rv)) (List.combine rows vals)).
Proof.
  intros Ln [Lr G]. split; [rewrite map_length, combine_length; lia|]. intros l c d Hl Hc Hd. destruct (G _ _ _ Hl Hc Hd) as (r & Gr & R).
  destruct (stamp_nth rows vals _ _ Ln Gr) as (v & Gv). eexists. split; [exact Gv|exact R].
Qed.

Lemma measure_measured e d i m conds w0 w1 st rep prm k w g w' n ns :
  device_wf d -> regular_at d (rp_lots rep) (rp_chps rep) ns -> ns prm k -> (forall p, dget d prm = Some (PDeg p) -> ~ In "init"%string (dkeys (dp_mechs p)) /\ ~ In "cond"%string (dkeys (dp_mechs p))) ->
  dwf (ms_conds m) -> dwf (ms_counts m) -> In (prm, k) (ms_counts m) ->
  (forall p, dget d prm = Some (PDeg p) -> dget (rp_counts rep) prm = Some n /\ k <= n) ->
  state_fits d (rp_lots rep) (rp_chps rep) (rp_counts rep) st ->
  gen_env_cond_vals e (ms_conds m) (PCounts (ms_counts m)) (Some (info_of rep)) (Some d) false 1 1 w0 = (Ok conds, w1) ->
  measure_prm e d i conds (ms_conds m) st rep prm k w = (Ok g, w') ->
  measured e d (rp_lots rep) (rp_chps rep) st conds (prm, k) g.
Proof.
  intros Wd Rg Hns Pn W1 W2 Hin Hn F Ec E. apply dget_wf_In in Hin; auto. unfold measure_prm in E. apply bind_ok in E as (rows & wa & E1 & E).
  apply bind_ok in E as (vals & wb & E2 & E). apply ret_ok in E as [-> ->].
  pose proof (measure_with_length _ _ _ _ _ _ E2) as Ln. rewrite map_length in Ln. apply measure_reads in E2.
  unfold measured. cbn [fst snd]. destruct (dget d prm) as [[p|c]|] eqn:Hd.
  - destruct (Hn _ eq_refl) as [Hc Hk]. clear Hn. destruct (Pn _ eq_refl) as [Pi Pc].
    destruct (F _ _ Hd) as (n1 & mv & v & v0 & ls & B1 & B2 & B3 & B4 & [B5 _] & B6 & B7 & B8 & B9).
    assert (n1 = n) by congruence. subst n1. rewrite B4 in E1.
    apply bind_lift_ok in E1 as (cs & D1 & E1). apply bind_lift_ok in E1 as (ls' & D2 & E1). apply bind_ok in E1 as (x & w2 & D3 & E1).
    apply lift_ok in E1 as [E1 ->]. apply dgetE_ok in D1, D2. assert (ls' = ls) by congruence. subst ls'.
    destruct (Rg _ _ _ Hd Hns) as (_ & R2 & R3 & _). exists cs. split; auto.
    assert (Ocs := conds_operands _ _ _ _ _ _ _ _ _ _ _ _ _ _ _ W1 Ec Hd D1 Hin).
    pose proof D3 as D4. eapply cond_shifted_shape in D4; eauto.
    destruct D4 as [[y ->]|(a & -> & A1 & A2)]; [rewrite format_other in E1 by discriminate; discriminate|].
    eapply cond_shifted_truth in D3 as (current & lats' & cl & cargs & shift & args & w3 & T1 & T2 & T3 & T4 & T5 & T6 & T7 & T8 & T9 & T10 & T11 & T12); eauto.
    2: { destruct Wd as [_ Wd]. eapply Wd; eauto. }
    apply format_vals with (L := rp_lots rep) (C := rp_chps rep) (D := k) in E1 as [V1 V2]; [|rewrite A1; constructor|exact A2].
    exists a. rewrite V1 in E2. rewrite stamp_vals by auto. repeat split; auto; try apply stamp_labelled; auto.
    exists v, current, ls, lats', cl, cargs, shift, args, w, w3, w2. repeat (split; [assumption|]). assumption.
  - destruct (dget (st_prm st) prm); [discriminate|].
    apply bind_lift_ok in E1 as (cs & D1 & E1). apply bind_lift_ok in E1 as (ls & D2 & E1). apply bind_ok in E1 as (x & w2 & D3 & E1).
    apply lift_ok in E1 as [E1 ->]. apply dgetE_ok in D1, D2. exists cs. split; auto. exists ls, x, w, w2. split; auto. split; auto.
    intros a L' C' n' -> A1 A2. apply format_vals with (L := L') (C := C') (D := n') in E1 as [V1 V2]; [|rewrite A1; constructor|exact A2].
    rewrite V1 in E2. rewrite stamp_vals by auto. split; auto. now apply stamp_labelled.
  - destruct (dget (st_prm st) prm); [discriminate|]. destruct (dmem (ms_conds m) prm) eqn:Mc; [|discriminate].
    apply dmem_Some in Mc as [v0 Mc]. apply bind_lift_ok in E1 as (cs & D1 & E1). apply bind_lift_ok in E1 as (v & D2 & E1).
    apply lift_ok in E1 as [E1 ->]. apply dgetE_ok in D1, D2. exists cs. split; auto.
    destruct (env_conds_elements _ _ _ _ _ _ _ _ _ _ _ W1 Ec _ _ Mc) as (mm & t & xb & chps & wb' & wc & wd & _ & _ & _ & _ & G).
    specialize (G _ _ D1). cbn [dev_prm] in G. rewrite Hd in G. destruct (G eq_refl) as (n' & a & sens & devs & w2 & w3 & w4 & -> & G1 & G2 & G3 & _).
    cbn [request_count] in G1. rewrite Hin in G1. injection G1 as <-. cbn [dget] in D2. rewrite String.eqb_refl in D2. injection D2 as <-.
    rewrite (format_cond a prm (st_elapsed st) i 1 k 1) in E1; [|rewrite G2; constructor|lia]. injection E1 as <-.
    rewrite map_length in Ln. rewrite map_map in E2. cbn [r_val] in E2. rewrite map_id in E2. exists a. cbn [dget]. rewrite String.eqb_refl. split; auto.
    rewrite stamp_vals by (rewrite map_length; auto). split; auto. split; [rewrite map_length, combine_length, map_length; lia|].
    intros r Hr. apply in_map_iff in Hr as ([r0 x] & <- & Hr). apply in_combine_l in Hr. apply in_map_iff in Hr as (y & <- & _). auto.
Qed.

(** ** Elements *)
Lemma pmap_elem f L C n (x z : pyval V) l c d : operand L C n x -> l < L -> c < C -> d < n -> pmap f x = Ok z -> elem z [l; c; d] = f (elem x [l; c; d]).
Proof.
  intros Ox Hl Hc Hd E. destruct Ox as [[u ->]|(a & -> & A1 & A2)]; unfold pmap in E; cbn [to_nd rbind] in E; injection E as <-; [reflexivity|].
  rewrite of_nd_arr by (cbn; rewrite A1; discriminate). cbn [elem]. assert (Wa : awf a) by (unfold awf; rewrite A1; cbn; lia).
  apply aget_amap; auto. rewrite A1. now apply valid3.
Qed.

Lemma pmap2_elem f L C n (x y z : pyval V) l c d : operand L C n x -> operand L C n y -> l < L -> c < C -> d < n -> pmap2 f x y = Ok z ->
  elem z [l; c; d] = f (elem x [l; c; d]) (elem y [l; c; d]).
Proof.
  intros Ox Oy Hl Hc Hd E. assert (Hv : valid [L; C; n] [l; c; d]) by now apply valid3.
  destruct Ox as [[u ->]|(a & -> & A1 & A2)], Oy as [[v ->]|(b & -> & B1 & B2)]; unfold pmap2 in E; cbn [to_nd rbind] in E.
  - injection E as <-. reflexivity.
  - rewrite bmap2_scalar_l in E. cbn [rbind] in E. injection E as <-. rewrite of_nd_arr by (cbn; rewrite B1; discriminate). cbn [elem].
    rewrite B1. now rewrite aget_nbuild.
  - rewrite bmap2_scalar_r in E. cbn [rbind] in E. injection E as <-. rewrite of_nd_arr by (cbn; rewrite A1; discriminate). cbn [elem].
    rewrite A1. now rewrite aget_nbuild.
  - rewrite bmap2_same in E by congruence. cbn [rbind] in E. injection E as <-. rewrite of_nd_arr by (cbn; rewrite A1; discriminate). cbn [elem].
    rewrite A1. now rewrite aget_nbuild.
Qed.

Definition at_idx (args : dict (pyval V)) (idx : list nat) (x : string) : V := match dget args x with Some v => elem v idx | None => n0 end.

Lemma fvalue_elem (e : formula V) L C n args l c d : operands L C n args -> l < L -> c < C -> d < n ->
  forall z, fvalue e args = Ok z -> operand L C n z /\ elem z [l; c; d] = feval e (at_idx args [l; c; d]).
Proof.
  intros O Hl Hc Hd. induction e as [v|x|f e IH|f e1 IH1 e2 IH2]; intros z E; cbn [fvalue feval] in *.
  - injection E as <-. split; auto. left. eauto.
  - apply dgetE_ok in E. split; [exact (O _ _ (dget_In _ _ _ E))|]. unfold at_idx. now rewrite E.
  - apply rbind_ok in E as (y & E1 & E). destruct (IH _ E1) as [Oy Ey]. rewrite <- Ey. split; [|eapply pmap_elem; eauto].
    destruct (pmap_runs f L C n y Oy) as (z' & Q & Oz & _). congruence.
  - apply rbind_ok in E as (y1 & E1 & E). apply rbind_ok in E as (y2 & E2 & E). destruct (IH1 _ E1) as [O1 G1]. destruct (IH2 _ E2) as [O2 G2].
    rewrite <- G1, <- G2. split; [eapply pmap2_shape in E; eauto; tauto|eapply pmap2_elem; eauto].
Qed.

Lemma formula_elem (f : eqn V) e L C n args w v w' l c d : given_by f e -> dwf args -> operands L C n args -> l < L -> c < C -> d < n ->
  call_or_loop f args L C n w = (Ok v, w') -> elem v [l; c; d] = feval e (at_idx args [l; c; d]).
Proof.
  intros Gf Wa Oa Hl Hc Hd E. apply try_ok in E as [E|(w1 & E0 & E)].
  - apply call_body in E as [E _]. destruct Gf as (_ & _ & _ & Eb). rewrite Eb in E. injection E as E _. eapply fvalue_elem; eauto.
  - (* a formula never raises ValueError on operands of one shape *)
    exfalso. destruct Gf as (Eo & Ek & Kn & Eb). unfold call in E0. destruct (forallb (dmem args) (e_req f)) eqn:F; cbn [andb] in E0; [|discriminate].
    destruct (match e_kw f with Some _ => _ | None => _ end); [|discriminate]. rewrite Eb in E0.
    destruct (fvalue_runs e L C n args Oa) as (z & Ez & _); [|rewrite Ez in E0; discriminate].
    intros x Hx. rewrite forallb_forall in F. apply dmem_keys, F, Kn, Hx.
Qed.

Lemma feval_ext (e : formula V) env env' : (forall x, In x (fnames e) -> env x = env' x) -> feval e env = feval e env'.
Proof.
  induction e as [v|x|f e IH|f e1 IH1 e2 IH2]; intros G; cbn [feval fnames] in *; auto; [apply G; now left|now rewrite IH|].
  rewrite IH1, IH2; auto; intros; apply G, in_or_app; auto.
Qed.

Lemma cut_elem k (v u : pyval V) L C l c d : cut k v u -> shaped L C k u -> l < L -> c < C -> d < k -> elem u [l; c; d] = elem v [l; c; d].
Proof.
  intros Cu (b & -> & B1 & B2) Hl Hc Hd. inversion Cu as [a b' L' C' D Sa Sb Hk La Lb G|]; subst. rewrite B1 in Sb. injection Sb as <- <-.
  cbn [elem]. specialize (G _ _ _ Hl Hc Hd). rewrite (flat_get b L C k), (flat_get a L C D) in G by (auto; lia). congruence.
Qed.

Lemma cut_all_get k (d d' : dict (pyval V)) : cut_all k d d' -> forall x u, dget d' x = Some u -> exists v, dget d x = Some v /\ cut k v u.
Proof.
  revert d'. induction d as [|[y v] d IH]; intros d' Cd x u E; inversion Cd; subst; [discriminate|]. cbn [dget] in *. destruct (String.eqb x y); [|eapply IH; eauto].
  injection E as <-. eauto.
Qed.
Lemma cut_all_get' k (d d' : dict (pyval V)) : cut_all k d d' -> forall x v, dget d x = Some v -> exists u, dget d' x = Some u /\ cut k v u.
Proof.
  revert d'. induction d as [|[y v0] d IH]; intros d' Cd x v E; inversion Cd; subst; [discriminate|]. cbn [dget] in *. destruct (String.eqb x y); [|eapply IH; eauto].
  injection E as <-. eauto.
Qed.

Lemma cut_all_none k (d d' : dict (pyval V)) x : cut_all k d d' -> dget d' x = None -> dget d x = None.
Proof. intros Cd E. destruct (dget d x) as [v|] eqn:G; auto. destruct (cut_all_get' _ _ _ Cd _ _ G) as (u & Q & _). congruence. Qed.

Lemma cut_operand k L C (v u : pyval V) l c d : cut k v u -> operand L C k u -> l < L -> c < C -> d < k -> elem u [l; c; d] = elem v [l; c; d].
Proof. intros Cu [[y ->]|S] Hl Hc Hd; [inversion Cu|]. eapply cut_elem; eauto. Qed.

Lemma computes_call (f : eqn V) L C n args w v w' : computes f -> dwf args -> operands L C n args ->
  call_or_loop f args L C n w = (Ok v, w') -> call f args w = (Ok v, w') /\ accepts f (dkeys args).
Proof.
  intros Cf Wa Oa E. assert (A : accepts f (dkeys args) \/ ~ accepts f (dkeys args)).
  { destruct (call_accepts f args) as [G1 G2]. unfold accepts.
    assert (D1 : (forall x, In x (e_req f) -> In x (dkeys args)) \/ ~ (forall x, In x (e_req f) -> In x (dkeys args))).
    { destruct (forallb (dmem args) (e_req f)) eqn:F.
      - left. intros x Hx. rewrite forallb_forall in F. apply dmem_keys; auto.
      - right. intros G. apply Bool.not_true_iff_false in F. apply F. apply forallb_forall. intros x Hx. apply dmem_keys; auto. }
    assert (D2 : (forall x, In x (dkeys args) -> In x (e_req f) \/ In x (e_opt f)) \/ ~ (forall x, In x (dkeys args) -> In x (e_req f) \/ In x (e_opt f))).
    { destruct (forallb (fun x => smem x (e_req f ++ e_opt f)) (dkeys args)) eqn:F.
      - left. intros x Hx. rewrite forallb_forall in F. apply in_app_or, smem_In. auto.
      - right. intros G. apply Bool.not_true_iff_false in F. apply F. apply forallb_forall. intros x Hx. apply smem_In, in_or_app. auto. }
    destruct (e_kw f); intuition congruence. }
  destruct A as [A|A].
  - split; auto. apply try_ok in E as [E|(w1 & E0 & E)]; auto. destruct (Cf L C n args w Wa Oa A) as (v1 & w2 & Q). congruence.
  - exfalso. pose proof (proj2 (call_accepts f args) A w) as Q. apply try_ok in E as [E|(w1 & E0 & E)]; congruence.
Qed.

Lemma call_required (f : eqn V) args w v w' : call f args w = (Ok v, w') -> forall x, In x (e_req f) -> In x (dkeys args).
Proof.
  unfold call. intros E x Hx. destruct (forallb (dmem args) (e_req f)) eqn:F; cbn [andb] in E; [|discriminate].
  rewrite forallb_forall in F. apply dmem_keys. auto.
Qed.

Lemma truth_formula L C k (p : degprm V) name st cs truth e : deg_truth L C k p name st cs truth -> given_by (lm_eqn (dp_own p)) e ->
  exists cur lats cl shift, dget (st_prm st) name = Some cur /\ dget (st_lat st) name = Some lats /\ dget lats "cond" = Some (PDict cl) /\
    (forall l c d, l < L -> c < C -> d < k -> exists env, device_args p cur shift lats [l; c; d] env /\ aget truth [l; c; d] = feval e env) /\
    (forall ec, given_by (lm_eqn (dp_cond p)) ec -> forall l c d, l < L -> c < C -> d < k ->
       exists env, shift_args cl cs [l; c; d] env /\ elem shift [l; c; d] = feval ec env).
Proof.
  intros (cur & current & lats & lats' & cl' & cargs & shift & args & w1 & w2 & w3 & T1 & T2 & T3 & T4 & T5 & T6 & T7 & T8 & T9 & T10 & T11 & T12 & T13 & T14 & T15) Gf.
  destruct (cut_all_get _ _ _ T4 _ _ T5) as (vc & Gc & Cc). inversion Cc as [|cl cl0 Cl]; subst.
  exists cur, lats, cl, shift. repeat (split; [assumption|]). split.
  - intros l c d Hl Hc Hd. destruct T11 as [Sw Si Sc Sm So _].
    exists (fun x => match dget args x with Some v => elem v [l; c; d] | None => at_idx lats [l; c; d] x end). split.
    + split; [|split; [|split]].
      * rewrite Si. eapply cut_operand; eauto. exact (T12 _ _ (dget_In _ _ _ Si)).
      * now rewrite Sc.
      * intros nm m Hm. now rewrite (Sm _ _ Hm).
      * intros x a N1 N2 N3 Hx. rewrite (So _ N1 N2 N3). destruct (smem x _) eqn:Sx; [|unfold at_idx; now rewrite Hx].
        destruct (cut_all_get' _ _ _ T4 _ _ Hx) as (u & Hu & Cu). rewrite Hu. eapply cut_operand with (v := PArr a); eauto.
        apply (T12 x). apply dget_In. now rewrite (So _ N1 N2 N3), Sx.
    + assert (E := formula_elem _ _ _ _ _ _ _ _ _ l c d Gf Sw T12 Hl Hc Hd T13). cbn [elem] in E. rewrite E. apply feval_ext.
      intros x Hx. unfold at_idx at 1. destruct (dget args x) eqn:Q; auto. exfalso.
      destruct (computes_call _ _ _ _ _ _ _ _ (formula_computes _ _ Gf) Sw T12 T13) as [Ec _].
      apply dget_None_keys in Q. apply Q. eapply call_required; [exact Ec|]. destruct Gf as (_ & _ & Kn & _). now apply Kn.
  - intros ec Ge l c d Hl Hc Hd.
    exists (fun x => match first_of [cl; cs] x with Some v => elem v [l; c; d] | None => n0 end). split.
    + intros x v Hx. now rewrite Hx.
    + rewrite (formula_elem _ _ _ _ _ _ _ _ _ l c d Ge T7 T8 Hl Hc Hd T9). apply feval_ext. intros x Hx.
      destruct (computes_call _ _ _ _ _ _ _ _ (formula_computes _ _ Ge) T7 T8 T9) as [Ec _].
      assert (Kx : In x (dkeys cargs)). { eapply call_required; [exact Ec|]. destruct Ge as (_ & _ & Kn & _). now apply Kn. }
      unfold at_idx. apply dmem_keys, dmem_Some in Kx as [v Hv]. rewrite Hv. pose proof (T8 _ _ (dget_In _ _ _ Hv)) as Ov.
      rewrite T6 in Hv. destruct (smem x _); [|discriminate]. cbn [first_of] in *. destruct (dget cl' x) as [u|] eqn:Q.
      * injection Hv as ->. destruct (cut_all_get _ _ _ Cl _ _ Q) as (v' & -> & Cu). eapply cut_operand; eauto.
      * rewrite (cut_all_none _ _ _ _ Cl Q). now rewrite Hv.
Qed.

Lemma psum_nums (us : list V) : forall a, psum (PNum a) (map PNum us) = Ok (PNum (fold_left nadd us a)).
Proof. induction us as [|u us IH]; intros a; cbn [map psum fold_left]; auto. apply IH. Qed.

Lemma truth_default L C k (p : degprm V) name st cs truth : deg_truth L C k p name st cs truth -> lm_eqn (dp_own p) = eqn_basic_sum -> dwf (dp_mechs p) ->
  ~ In "init"%string (dkeys (dp_mechs p)) -> ~ In "cond"%string (dkeys (dp_mechs p)) ->
  exists cur lats cl shift, dget (st_prm st) name = Some cur /\ dget (st_lat st) name = Some lats /\ dget lats "cond" = Some (PDict cl) /\
    (dget lats "mechs" = None -> forall l c d, l < L -> c < C -> d < k ->
       aget truth [l; c; d] = nadd (nadd (elem cur [l; c; d]) (elem shift [l; c; d])) (fold_left nadd (map (fun nm => mc_unitary (snd nm)) (dp_mechs p)) n0)) /\
    (forall ec, given_by (lm_eqn (dp_cond p)) ec -> forall l c d, l < L -> c < C -> d < k ->
       exists env, shift_args cl cs [l; c; d] env /\ elem shift [l; c; d] = feval ec env) /\
    (forall v, lm_eqn (dp_cond p) = eqn_const v -> shift = PNum v).
Proof.
  intros (cur & current & lats & lats' & cl' & cargs & shift & args & w1 & w2 & w3 & T1 & T2 & T3 & T4 & T5 & T6 & T7 & T8 & T9 & T10 & T11 & T12 & T13 & T14 & T15) Eo Wm Ni Nc.
  destruct (cut_all_get _ _ _ T4 _ _ T5) as (vc & Gc & Cc). inversion Cc as [|cl cl0 Cl]; subst.
  exists cur, lats, cl, shift. repeat (split; [assumption|]). split; [|split].
  - intros Nm l c d Hl Hc Hd. destruct T11 as [Sw Si Sc Sm So (rest & Kr)]. rewrite Eo in T13, So.
    assert (rest = []) as ->.
    { destruct rest as [|x r]; auto. exfalso. assert (Hx : In x (dkeys args)) by (rewrite Kr; right; right; apply in_or_app; right; now left).
      apply dmem_keys, dmem_Some in Hx as [v Hv]. unfold dwf in Sw. rewrite Kr in Sw.
      assert (N : x <> "init"%string /\ x <> "cond"%string /\ ~ In x (dkeys (dp_mechs p))).
      { inversion Sw as [|? ? A1 Sw1]; subst. inversion Sw1 as [|? ? A2 Sw2]; subst. repeat split.
        - intros ->. apply A1. right. apply in_or_app. right. now left.
        - intros ->. apply A2. apply in_or_app. right. now left.
        - intros I. apply NoDup_remove_2 in Sw2. apply Sw2. apply in_or_app. now left. }
      destruct N as (N1 & N2 & N3). rewrite (So _ N1 N2 N3) in Hv. cbn [compute_args eqn_basic_sum e_req e_opt e_kw app] in Hv.
      destruct (smem x _) eqn:Sx; [|discriminate]. apply smem_In in Sx as [<-|[<-|[<-|[]]]]; try contradiction.
      destruct (cut_all_get _ _ _ T4 _ _ Hv) as (y & Q & _). congruence. }
    assert (args = [("init"%string, current); ("cond"%string, shift)] ++ map (fun nm => (fst nm, PNum (mc_unitary (snd nm)))) (dp_mechs p)) as ->.
    { symmetry. apply dict_ext; auto.
      - rewrite Kr, app_nil_r. unfold dkeys. rewrite map_app, map_map. reflexivity.
      - intros x. cbn [app dget]. destruct (String.eqb_spec x "init") as [->|N1]; [auto|]. destruct (String.eqb_spec x "cond") as [->|N2]; [auto|].
        destruct (dget (dp_mechs p) x) as [m|] eqn:Q.
        + rewrite (Sm _ _ Q). clear -Q. induction (dp_mechs p) as [|[y m'] r IH]; [discriminate|]. cbn [map fst snd dget] in *. destruct (String.eqb x y); [congruence|auto].
        + assert (N3 : ~ In x (dkeys (dp_mechs p))) by now apply dget_None_keys.
          assert (R : dget (map (fun nm : string * mech V => (fst nm, PNum (mc_unitary (snd nm)))) (dp_mechs p)) x = None).
          { apply dget_None_keys. unfold dkeys in *. rewrite map_map. exact N3. }
          rewrite R. symmetry. apply dget_None_keys. rewrite Kr, app_nil_r. intros [<-|[<-|I]]; contradiction. }
    destruct (computes_call _ _ _ _ _ _ _ _ basic_sum_computes Sw T12 T13) as [Ec _]. apply call_body in Ec as [Ec _].
    apply lift_ok in Ec as [Ec _]. cbn [app] in Ec. unfold dgetE in Ec. cbn [dget String.eqb Ascii.eqb Bool.eqb rbind] in Ec.
    apply rbind_ok in Ec as (ic & E1 & Ec). cbn [filter fst String.eqb Ascii.eqb Bool.eqb orb negb] in Ec.
    rewrite filter_plain in Ec; [|unfold dkeys in *; rewrite map_map; auto|unfold dkeys in *; rewrite map_map; auto].
    replace (map snd (map (fun nm : string * mech V => (fst nm, PNum (mc_unitary (snd nm)))) (dp_mechs p)))
      with (map PNum (map (fun nm : string * mech V => mc_unitary (snd nm)) (dp_mechs p))) in Ec by (rewrite !map_map; reflexivity).
    rewrite psum_nums in Ec. cbn [rbind] in Ec.
    assert (Oc : operand L C k current) by (apply (T12 "init"%string); now left).
    destruct (pmap2_shape _ _ _ _ _ _ _ Oc T10 E1) as [Oic _].
    assert (E2 := pmap2_elem _ _ _ _ _ _ _ l c d Oic (or_introl (ex_intro _ _ eq_refl)) Hl Hc Hd Ec). cbn [elem] in E2. rewrite E2. f_equal.
    rewrite (pmap2_elem _ _ _ _ _ _ _ l c d Oc T10 Hl Hc Hd E1). f_equal. eapply cut_operand; eauto.
  - intros ec Ge l c d Hl Hc Hd.
    exists (fun x => match first_of [cl; cs] x with Some v => elem v [l; c; d] | None => n0 end). split.
    + intros x v Hx. now rewrite Hx.
    + rewrite (formula_elem _ _ _ _ _ _ _ _ _ l c d Ge T7 T8 Hl Hc Hd T9). apply feval_ext. intros x Hx.
      destruct (computes_call _ _ _ _ _ _ _ _ (formula_computes _ _ Ge) T7 T8 T9) as [Ec _].
      assert (Kx : In x (dkeys cargs)). { eapply call_required; [exact Ec|]. destruct Ge as (_ & _ & Kn & _). now apply Kn. }
      unfold at_idx. apply dmem_keys, dmem_Some in Kx as [v Hv]. rewrite Hv. pose proof (T8 _ _ (dget_In _ _ _ Hv)) as Ov.
      rewrite T6 in Hv. destruct (smem x _); [|discriminate]. cbn [first_of] in *. destruct (dget cl' x) as [u|] eqn:Q.
      * injection Hv as ->. destruct (cut_all_get _ _ _ Cl _ _ Q) as (v' & -> & Cu). eapply cut_operand; eauto.
      * rewrite (cut_all_none _ _ _ _ Cl Q). now rewrite Hv.
  - intros v Ev. rewrite Ev in T9. destruct (computes_call _ _ _ _ _ _ _ _ (const_computes v) T7 T8 T9) as [Ec _].
    apply call_body in Ec as [Ec _]. now apply ret_ok in Ec as [-> _].
Qed.

(** ** Runs *)
Lemma unstressed_time (l : list (step V)) : (forall s, ~ In (SStrs s) l) -> stress_time l = 0%Z.
Proof.
  induction l as [|x l IH]; intros Hl; auto. assert (E : stress_time l = 0%Z) by (apply IH; intros s Q; apply (Hl s); now right).
  unfold stress_time in *. cbn [map total fold_right]. destruct x as [?|s|?]; cbn [step_time]; [exact E| |exact E]. destruct (Hl s). now left.
Qed.
Lemma run_measured e d l1 (m : meas_spec V) l2 i st rep w st' rep' w' :
  device_wf d -> regular d -> (forall s, In s (l1 ++ SMeas m :: l2) -> step_wf s) ->
  (forall q p, dget d q = Some (PDeg p) -> ~ In "init"%string (dkeys (dp_mechs p)) /\ ~ In "cond"%string (dkeys (dp_mechs p))) ->
  (forall x k n p, requests (l1 ++ SMeas m :: l2) x k -> dget d x = Some (PDeg p) -> dget (rp_counts rep) x = Some n -> k <= n) ->
  state_fits d (rp_lots rep) (rp_chps rep) (rp_counts rep) st ->
  run_steps e d i (l1 ++ SMeas m :: l2) st rep w = (Ok (st', rep'), w') ->
  exists st1 rep1 w1 conds w2 groups rest,
    run_steps e d i l1 st rep w = (Ok (st1, rep1), w1) /\
    gen_env_cond_vals e (ms_conds m) (PCounts (ms_counts m)) (Some (info_of rep1)) (Some d) false 1 1 w1 = (Ok conds, w2) /\
    rp_meas rep' = rp_meas rep1 ++ concat groups ++ rest /\
    Forall2 (fun kv g => measured e d (rp_lots rep) (rp_chps rep) st1 conds kv g /\ stamped (i + length l1) (st_elapsed st1) kv g) (ms_counts m) groups.
Proof.
  intros Wd Rg Ws Pn Hk F E. rewrite run_app in E. apply bind_ok in E as ([st1 rep1] & w1 & E1 & E). cbn [fst snd] in E.
  destruct (run_shapes e d l1 i st rep w st1 rep1 w1 Wd Rg) as (_ & F1 & S1); auto.
  { intros s Hs. apply Ws, in_or_app. now left. }
  { intros x k n p R. apply (Hk x k n p). destruct R as (m0 & I & R). exists m0. split; [apply in_or_app; now left|exact R]. }
  change (SMeas m :: l2) with ([SMeas m] ++ l2) in E. rewrite run_app in E. apply bind_ok in E as ([st2 rep2] & w2 & E2 & E). cbn [fst snd] in E.
  unfold run_steps in E2. cbn [enumerate foldM sim_step fst snd] in E2. apply bind_ok in E2 as ([st3 rep3] & w3 & E2 & E3).
  apply ret_ok in E3 as [E3 ->]. injection E3 as -> ->.
  apply meas_step_ok in E2 as (conds & rows & w4 & Ec & Ef & -> & ->).
  destruct S1 as (S1 & S2 & S3).
  apply meas_groups with (P := fun kv g => measured e d (rp_lots rep) (rp_chps rep) st1 conds kv g /\ stamped (i + length l1) (st_elapsed st1) kv g) in Ef as (gs & -> & Fg).
  - match type of E with run_steps _ _ ?j _ ?s ?r ?v = _ => assert (X := fun A B D => run_shapes e d l2 j s r v _ _ _ Wd Rg A B D E) end.
    cbn [add_summary add_measurements rp_counts rp_lots rp_chps] in X. rewrite S1, S2, S3 in X. destruct X as ((rest & Er & _) & _ & _); auto.
    + intros s Hs. apply Ws, in_or_app. right. now right.
    + intros x k n p (m0 & I & R). apply Hk. exists m0. split; auto. apply in_or_app. right. now right.
    + cbn [add_summary add_measurements rp_meas app] in Er. exists st1, rep1, w1, conds, w4, gs, rest. rewrite Er, <- app_assoc. auto.
  - intros [prm k] wa g wb Hin Em. split; [|eapply measure_prm_stamp; exact Em]. cbn [fst snd] in Em. rewrite <- S1, <- S2.
    assert (W : step_wf (SMeas m)) by (apply Ws, in_or_app; right; now left). destruct W as [Wc Wn].
    rewrite <- S1, <- S2, <- S3 in F1.
    destruct (dget d prm) as [[p|c]|] eqn:Hd.
    + destruct (F1 _ _ Hd) as (n & _ & _ & _ & _ & B1 & _). eapply (measure_measured e d) with (m := m) (n := n) (ns := any); unfold any; eauto using regular_all.
      intros p' Hp. split; auto. rewrite S3 in B1. eapply Hk with (x := prm); eauto. exists m. split; auto. apply in_or_app. right. now left.
    + eapply (measure_measured e d) with (m := m) (n := 0) (ns := any); unfold any; eauto using regular_all; rewrite Hd; discriminate.
    + eapply (measure_measured e d) with (m := m) (n := 0) (ns := any); unfold any; eauto using regular_all; rewrite Hd; discriminate.
Qed.

Lemma simulate_measured e d l1 (m : meas_spec V) l2 chps lots w st' rep' w' :
  device_wf d -> regular d -> (forall s, In s (l1 ++ SMeas m :: l2) -> step_wf s) ->
  (forall q p, dget d q = Some (PDeg p) -> ~ In "init"%string (dkeys (dp_mechs p)) /\ ~ In "cond"%string (dkeys (dp_mechs p))) ->
  simulate e d (l1 ++ SMeas m :: l2) chps lots None w = (Ok (st', rep'), w') ->
  exists st0 rep0 w0 st1 rep1 w1 conds w2 groups rest,
    dev_init_state d (rp_counts rep') chps lots w = (Ok (st0, rp_counts rep'), w0) /\
    rp_meas rep0 = [] /\ rp_sum rep0 = [] /\ rp_chps rep0 = chps /\ rp_lots rep0 = lots /\ rp_counts rep0 = rp_counts rep' /\
    run_steps e d 0 l1 (set_elapsed st0 (TD 0)) rep0 w0 = (Ok (st1, rep1), w1) /\
    gen_env_cond_vals e (ms_conds m) (PCounts (ms_counts m)) (Some (TInfo chps lots (rp_counts rep'))) (Some d) false 1 1 w1 = (Ok conds, w2) /\
    rp_meas rep' = rp_meas rep1 ++ concat groups ++ rest /\
    Forall2 (fun kv g => measured e d lots chps st1 conds kv g /\ stamped (length l1) (TD (stress_time l1)) kv g) (ms_counts m) groups.
Proof.
  intros W Rg Ws Pn E. apply simulate_run in E as (st0 & rep0 & w0 & E & M0 & N0 & C0 & L0 & T0 & _ & _ & _ & st1 & Ei & -> & Q); auto.
  pose proof Ei as Ei'. apply dev_init_shape with (ns := any) in Ei; unfold any; auto using regular_all.
  assert (Hk : forall x k n p, requests (l1 ++ SMeas m :: l2) x k -> dget d x = Some (PDeg p) -> dget (rp_counts rep0) x = Some n -> k <= n).
  { intros x k n p Hr Hp Hn.
    destruct (calc_samples_bound (l1 ++ SMeas m :: l2)) as (_ & _ & Hub). destruct (Hub _ _ Hr) as (y & Hy & Hle).
    destruct (augment_mono d (dkeys (calc_samples_needed (l1 ++ SMeas m :: l2))) (calc_samples_needed (l1 ++ SMeas m :: l2), None) x y Hy) as (z & Hz & Hle').
    rewrite Q, Hz in Hn. injection Hn as <-. lia. }
  rewrite <- C0, <- L0 in Ei. pose proof E as E'. apply run_shapes in E' as (_ & _ & (Q1 & Q2 & Q3)); auto.
  pose proof E as E'. apply run_measured in E' as (sa & ra & wa & conds & w2 & gs & rest & R1 & R2 & R3 & R4); auto.
  exists st1, rep0, w0, sa, ra, wa, conds, w2, gs, rest. rewrite Q3.
  assert (Sa : same_info rep0 ra).
  { rewrite run_app in E. apply bind_ok in E as ([sb rb] & wb & E1 & _). rewrite R1 in E1. injection E1 as <- <- <-.
    apply run_shapes in R1 as (_ & _ & S); auto.
    - intros s Hs. apply Ws, in_or_app. now left.
    - intros x k n p (m0 & I & R). apply Hk. exists m0. split; auto. apply in_or_app. now left. }
  destruct Sa as (Sa1 & Sa2 & Sa3). unfold info_of in R2. rewrite Sa1, Sa2, Sa3, C0, L0 in R2.
  rewrite L0, C0 in R4. assert (El : st_elapsed sa = TD (stress_time l1)).
  { apply run_same in R1 as (_ & _ & T1 & _). cbn [set_elapsed st_elapsed] in T1. destruct T1 as [(x & Y1 & Y2)|(Y1 & Y2)]; [injection Y1 as <-; exact Y2|].
    rewrite Y1. f_equal. symmetry. now apply unstressed_time. }
  rewrite El in R4. repeat (split; [first [assumption|reflexivity]|]). assumption.
Qed.

(** ** Exact readings *)
Lemma read_exact e name (truth readings : list V) : dget e (name ++ "_instm") = None -> read_with e name truth readings -> readings = truth.
Proof.
  intros N (ins & [G|(_ & P1 & P2 & P3)] & Ln & es & w & w' & _ & R); [congruence|]. rewrite P1, P2, P3 in R.
  apply nth_error_ext'. intros k. destruct (nth_error truth k) as [x|] eqn:E.
  - destruct (R _ _ E) as (x' & r & y & -> & Hr & Hl & ->). cbn in Hr, Hl. congruence.
  - apply nth_error_None. apply nth_error_None in E. lia.
Qed.

Lemma measured_exact e d L C st conds name k g (p : degprm V) :
  nadd n0 n0 = n0 :> V -> device_wf d -> dget d name = Some (PDeg p) ->
  ~ In "init"%string (dkeys (dp_mechs p)) -> ~ In "cond"%string (dkeys (dp_mechs p)) ->
  dget e (name ++ "_instm") = None -> lm_eqn (dp_own p) = eqn_basic_sum -> lm_eqn (dp_cond p) = eqn_const n0 ->
  (forall nm m, In (nm, m) (dp_mechs p) -> mc_unitary m = n0) ->
  (forall lats, dget (st_lat st) name = Some lats -> dget lats "mechs" = None) ->
  measured e d L C st conds (name, k) g ->
  exists cur, dget (st_prm st) name = Some cur /\
    forall l c i, l < L -> c < C -> i < k -> exists r, nth_error g ((l * C + c) * k + i) = Some r /\
      r_lot r = Some l /\ r_chp r = Some c /\ r_dev r = Some i /\
      (nadd (elem cur [l; c; i]) n0 = elem cur [l; c; i] -> r_val r = elem cur [l; c; i]).
Proof.
  intros Z Wd Hd Ni Nc Ne Eo Ec Eu Nm (cs & Gcs & M). cbn [fst snd] in *. rewrite Hd in M. destruct M as (truth & T & R & Lb).
  apply read_exact in R; auto.
  pose proof T as T'. apply truth_default in T' as (cur & lats & cl & shift & T1 & T2 & T3 & T4 & _ & T5); auto; [|eapply Wd; eauto].
  specialize (T5 _ Ec). subst shift. exists cur. split; auto. intros l c i Hl Hc Hi. destruct Lb as [Ln Lb].
  destruct (Lb _ _ _ Hl Hc Hi) as (r & Gr & A1 & A2 & A3). exists r. repeat (split; [assumption|]).
  destruct T as (? & ? & ? & ? & ? & ? & ? & ? & ? & ? & ? & _ & _ & _ & _ & _ & _ & _ & _ & _ & _ & _ & _ & _ & S1 & S2).
  assert (Q := flat_get truth L C k l c i S1 S2 Hl Hc Hi). rewrite <- R, nth_error_map, Gr in Q. cbn [option_map] in Q. injection Q as ->.
  rewrite T4 by (auto; eapply Nm; eauto). cbn [elem]. intros Q. rewrite Q.
  assert (F : fold_left nadd (map (fun nm : string * mech V => mc_unitary (snd nm)) (dp_mechs p)) n0 = n0); [|now rewrite F].
  clear -Z Eu. induction (dp_mechs p) as [|[nm m] ms IH]; auto. cbn [map fold_left snd]. rewrite (Eu nm m) by now left. rewrite Z. apply IH.
  intros; eapply Eu; right; eauto.
Qed.
End L.
