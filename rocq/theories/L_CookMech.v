(** Lemmas about the prebuilt mechanism. *)
From Coq Require Import Reals QArith Lra Lia.
From Flocq Require Import Core.
From Verif Require Import M_Base M_Num M_NumR M_Nd M_RandVar M_Latent M_Time M_Minimize M_Device M_LatentMdl M_CookMech
  S_Latent S_Minimize S_Device S_DeviceR S_CookMech L_Base L_Latent L_Nd L_Device L_Device2 L_Device3 L_DeviceR L_Report.
Open Scope R_scope.

Lemma Rpower_pos x y : 0 < Rpower x y. Proof. apply exp_pos. Qed.
Lemma Rpower_lt_base x y n : 0 < n -> 0 < x -> x < y -> Rpower x n < Rpower y n.
Proof. intros. unfold Rpower. apply exp_increasing. apply Rmult_lt_compat_l; auto. now apply ln_increasing. Qed.

Lemma law_pos a0 e temp vdd alpha n t : 0 < t -> nbti_law a0 e temp vdd alpha n t = a0 * exp (e / (8617 / 100000000 * temp)) * Rpower vdd alpha * Rpower t n.
Proof. intros. unfold nbti_law. destruct (Rle_dec t 0); [lra|auto]. Qed.
Lemma law_zero a0 e temp vdd alpha n : nbti_law a0 e temp vdd alpha n 0 = 0.
Proof. unfold nbti_law. destruct (Rle_dec 0 0); lra. Qed.
Lemma law_time a0 e temp vdd alpha n : 0 < a0 -> 0 < n -> forall t t', 0 <= t -> t < t' ->
  nbti_law a0 e temp vdd alpha n t < nbti_law a0 e temp vdd alpha n t'.
Proof.
  intros Ha Hn t t' Ht L. rewrite (law_pos _ _ _ _ _ _ t') by lra.
  assert (P : 0 < a0 * exp (e / (8617 / 100000000 * temp)) * Rpower vdd alpha).
  { repeat apply Rmult_lt_0_compat; auto; apply exp_pos. }
  destruct (Req_dec t 0) as [->|N].
  - rewrite law_zero. apply Rmult_lt_0_compat; auto. apply Rpower_pos.
  - rewrite law_pos by lra. apply Rmult_lt_compat_l; auto. apply Rpower_lt_base; lra.
Qed.
Lemma law_vdd a0 e temp vdd vdd' alpha n t : 0 < a0 -> 0 < alpha -> 0 < vdd -> vdd < vdd' -> 0 < t ->
  nbti_law a0 e temp vdd alpha n t < nbti_law a0 e temp vdd' alpha n t.
Proof.
  intros. rewrite !law_pos by auto. apply Rmult_lt_compat_r; [apply Rpower_pos|]. apply Rmult_lt_compat_l; [|now apply Rpower_lt_base].
  apply Rmult_lt_0_compat; auto. apply exp_pos.
Qed.
Lemma law_temp a0 e temp temp' vdd alpha n t : 0 < a0 -> 0 < e -> 0 < temp -> temp < temp' -> 0 < t ->
  nbti_law a0 e temp' vdd alpha n t < nbti_law a0 e temp vdd alpha n t.
Proof.
  intros. rewrite !law_pos by auto. apply Rmult_lt_compat_r; [apply Rpower_pos|]. apply Rmult_lt_compat_r; [apply Rpower_pos|].
  apply Rmult_lt_compat_l; auto. apply exp_increasing. unfold Rdiv. apply Rmult_lt_compat_l; auto.
  apply Rinv_lt_contravar; [|lra]. apply Rmult_lt_0_compat; lra.
Qed.

(** ** Elementwise evaluation *)
Lemma pmap2_data (f : R -> R -> R) s xs ys : s <> [] -> length xs = prod s -> length ys = prod s ->
  pmap2 f (PArr (Nd s xs)) (PArr (Nd s ys)) = Ok (PArr (Nd s (map (fun xy => f (fst xy) (snd xy)) (List.combine xs ys)))).
Proof. intros Ns Hx Hy. unfold pmap2. cbn [to_nd rbind]. rewrite bmap2_data by auto. cbn [rbind]. rewrite of_nd_arr by auto. reflexivity. Qed.
Lemma pmap_data (f : R -> R) s xs : s <> [] -> pmap f (PArr (Nd s xs)) = Ok (PArr (Nd s (map f xs))).
Proof. intros Ns. unfold pmap. cbn [to_nd rbind]. now rewrite of_nd_arr. Qed.
Lemma combine_map_length {A B E} (f : A * B -> E) xs ys n : length xs = n -> length ys = n -> length (map f (List.combine xs ys)) = n.
Proof. intros. rewrite map_length, combine_length. lia. Qed.

Lemma r_power_pos x y : 0 < x -> r_power x y = Rpower x y.
Proof. intros. unfold r_power. rewrite Req_bool_false; auto. lra. Qed.
Lemma r_power_0 y : 0 < y -> r_power 0 y = 0.
Proof. intros. unfold r_power. rewrite Req_bool_true, Req_bool_false; auto. lra. Qed.

Definition nbti_val (a0 e temp vdd alpha n t : R) : R :=
  a0 * exp (e / (boltzmann_ev * temp)) * r_power vdd alpha * r_power t n.
Lemma nbti_val_law a0 e temp vdd alpha n t : 0 < vdd -> 0 < n -> 0 <= t -> nbti_val a0 e temp vdd alpha n t = nbti_law a0 e temp vdd alpha n t.
Proof.
  intros Hv Hn Ht. unfold nbti_val. rewrite r_power_pos by auto. destruct (Req_dec t 0) as [->|N].
  - rewrite r_power_0, law_zero by auto. ring.
  - rewrite r_power_pos, law_pos by lra. reflexivity.
Qed.


(** A variable with nothing but a device layer samples that layer. *)
Section DevOnly.
Context {V : Type} `{NumOps V} `{Rng V}.
Open Scope nat_scope.
Lemma list_nth_ext {A} (xs ys : list A) : length xs = length ys -> (forall k, k < length xs -> nth_error xs k = nth_error ys k) -> xs = ys.
Proof.
  revert ys. induction xs as [|x xs IH]; intros [|y ys] E K; try discriminate; auto. f_equal.
  - specialize (K 0 ltac:(cbn; lia)). cbn in K. congruence.
  - apply IH; [now injection E|]. intros k Hk. apply (K (S k)). cbn. lia.
Qed.
Lemma dev_only_gen (o : lvar V) t r D C L w a w' : neutral_laws (V := V) -> lv_rep o (Told t None (Some r) None None) ->
  gen_latent o D C L w = (Ok a, w') -> exists xs, a = Nd [L; C; D] xs /\ reads r (L * C * D) w xs w'.
Proof.
  intros NL Rp E. pose proof (gen_latent_main o _ D C L w Rp) as G.
  pose proof (lv_rep_shows _ _ Rp) as (_ & _ & _ & Sd & Sc & Sl & _). cbn [t_dev t_chp t_lot t_type t_deter behaves] in *.
  rewrite Sl in G. rewrite Sc in G. rewrite Sd in G.
  destruct (sample r (L * C * D) w) as [[xs|e] w3] eqn:Es; [|rewrite E in G; discriminate].
  destruct G as (a' & Ea & Sh & Le & El). rewrite E in Ea. injection Ea as <- <-.
  exists xs. split; [|now apply sample_reads]. destruct a as [sh da]. cbn [nshape ndata] in *. subst sh. f_equal.
  pose proof (sample_length _ _ _ _ _ Es) as Ls.
  apply list_nth_ext; [congruence|]. intros k Hk. rewrite Le in Hk.
  destruct (decompose3 L C D k Hk) as (l & c & d & Hl & Hc & Hd & ->).
  destruct (El l c d Hl Hc Hd) as (xd & xc & xl & E1 & E2 & E3 & E4). rewrite E4, E1.
  apply nth_error_In in E2, E3. apply repeat_spec in E2, E3. subst. destruct NL as [N1 N2]. destruct t; cbn; now rewrite ?N1, ?N2.
Qed.
End DevOnly.
Section Arr.
Context (s : list nat) (ps : list sample_pt).
Hypothesis Ns : s <> [].
Hypothesis Lp : length ps = prod s.
Hypothesis Ph : Forall physical ps.

Lemma nbti_call (m : mech R) ts L C D w : lm_eqn (mc_mdl m) = nbti_eqn -> length ts = prod s -> (forall t, In t ts -> 0 <= t) ->
  call_or_loop (lm_eqn (mc_mdl m)) (mech_args m (PArr (Nd s ts)) (conds_of s ps) (lats_of s ps)) L C D w =
  (Ok (PArr (Nd s (map (fun pt => shift_of (fst pt) (snd pt)) (List.combine ps ts)))), w).
Proof.
  intros Em Lt Pt. unfold call_or_loop, mech_args. rewrite Em. unfold try_value_error.
  assert (G : gather (compute_args nbti_eqn) [lats_of s ps; conds_of s ps] [("time"%string, PArr (Nd s ts))] =
    [("time", PArr (Nd s ts)); ("a_0", PArr (Nd s (map s_a0 ps))); ("e_aa", PArr (Nd s (map s_e ps))); ("temp", PArr (Nd s (map s_temp ps)));
     ("vdd", PArr (Nd s (map s_vdd ps))); ("alpha", PArr (Nd s (map s_alpha ps))); ("n", PArr (Nd s (map s_n ps)))]%string) by reflexivity.
  rewrite G. unfold call. cbn [nbti_eqn e_req e_opt e_kw e_body].
  match goal with |- context [if ?b then _ else _] => change b with true end. cbn iota.
  unfold lift. unfold dgetE. cbn [dget String.eqb Ascii.eqb Bool.eqb rbind].
  assert (Lm : forall f : sample_pt -> R, length (map f ps) = prod s) by (intros; now rewrite map_length).
  rewrite pmap_data by auto. cbn [rbind]. rewrite pmap2_data by (auto; now rewrite map_length). cbn [rbind].
  rewrite pmap_data by auto. cbn [rbind].
  assert (M1 : length (map exp (map (fun xy : R * R => fst xy / snd xy) (List.combine (map s_e ps) (map (Rmult boltzmann_ev) (map s_temp ps))))) = prod s).
  { rewrite map_length. apply combine_map_length; auto. now rewrite map_length. }
  rewrite pmap2_data by auto. cbn [rbind]. rewrite pmap2_data by auto. cbn [rbind].
  rewrite pmap2_data by (auto; now apply combine_map_length). cbn [rbind].
  rewrite pmap2_data by auto. cbn [rbind].
  rewrite pmap2_data by (auto; repeat (apply combine_map_length; auto)).
  do 4 f_equal. clear - Ph Pt Lp Lt. assert (Ll : length ps = length ts) by congruence. clear Lp Lt. revert ts Pt Ll.
  induction Ph as [|p qs Hp Hq IH]; intros [|t ts] Pt Ll; try discriminate; [reflexivity|].
  cbn [map List.combine fst snd]. f_equal.
  - destruct Hp as (P1 & P2 & P3 & P4). unfold shift_of. rewrite <- nbti_val_law; auto. apply Pt. now left.
  - apply IH; [exact Hq|intros; apply Pt; now right|now injection Ll].
Qed.
End Arr.
