(** Proofs about exact time conversion. *)
From Verif Require Import M_Base M_Time S_Time.
From Coq Require Import Lqa ZifyBool.
Ltac Zify.zify_post_hook ::= Z.div_mod_to_equations.
Open Scope Q_scope.

Lemma round_half_even_spec q : nearest_even q (round_half_even q).
Proof.
  destruct q as [n d]. unfold nearest_even, round_half_even, Qle, Qeq, Qminus, Qplus, Qopp, inject_Z.
  cbn [Qnum Qden].
  pose proof (Z.div_mod n (Z.pos d) ltac:(lia)) as Hdm.
  pose proof (Z.mod_pos_bound n (Z.pos d) ltac:(lia)) as Hb.
  set (f := (n / Z.pos d)%Z) in *. set (r := (n mod Z.pos d)%Z) in *.
  destruct (Z.compare_spec (2 * r) (Z.pos d)) as [He|Hl|Hg].
  - destruct (Z.even f) eqn:E.
    + apply Z.even_spec in E. repeat split; try nia. auto.
    + assert (Z.even (f + 1) = true) as E2 by (rewrite Z.even_add, E; reflexivity).
      apply Z.even_spec in E2. repeat split; try nia. auto.
  - repeat split; try nia.
  - repeat split; try nia.
Qed.

Lemma nearest_even_unique q a b : nearest_even q a -> nearest_even q b -> a = b.
Proof.
  intros (A1 & A2 & A3) (B1 & B2 & B3).
  assert (inject_Z a - inject_Z b <= 1 /\ inject_Z b - inject_Z a <= 1) as [H1 H2] by (split; lra).
  unfold Qminus in H1, H2. rewrite <- inject_Z_opp, <- inject_Z_plus in H1, H2.
  change 1 with (inject_Z 1) in H1, H2. rewrite <- Zle_Qle in H1, H2.
  destruct (Z.eq_dec a b) as [|Hn]; auto. exfalso.
  assert (a = b + 1 \/ b = a + 1)%Z as [-> | ->] by lia.
  - rewrite inject_Z_plus in *. change (inject_Z 1) with 1 in *.
    assert (inject_Z b + 1 - q == 1 # 2) as E1 by lra.
    assert (q - inject_Z b == 1 # 2) as E2 by lra.
    destruct (A3 (or_introl E1)) as [k Hk]. destruct (B3 (or_intror E2)) as [j Hj]. lia.
  - rewrite inject_Z_plus in *. change (inject_Z 1) with 1 in *.
    assert (inject_Z a + 1 - q == 1 # 2) as E1 by lra.
    assert (q - inject_Z a == 1 # 2) as E2 by lra.
    destruct (B3 (or_introl E1)) as [k Hk]. destruct (A3 (or_intror E2)) as [j Hj]. lia.
Qed.

Lemma nearest_even_int q z : q == inject_Z z -> nearest_even q z.
Proof.
  intros H. unfold nearest_even. split; [rewrite H; lra|split; [rewrite H; lra|]].
  intros [E|E]; rewrite H in E; exfalso; lra.
Qed.

Lemma round_half_even_int q z : q == inject_Z z -> round_half_even q = z.
Proof.
  intros H. eapply nearest_even_unique; [apply round_half_even_spec|now apply nearest_even_int].
Qed.

Lemma round_half_even_compat p q : p == q -> round_half_even p = round_half_even q.
Proof.
  intros H. eapply nearest_even_unique; [apply round_half_even_spec|].
  destruct (round_half_even_spec q) as (A & B & C).
  unfold nearest_even. split; [rewrite H; assumption|split; [rewrite H; assumption|]].
  intros [E|E]; apply C; rewrite H in E; auto.
Qed.

Lemma round_half_even_mono p q : p <= q -> (round_half_even p <= round_half_even q)%Z.
Proof.
  intros H. destruct (Z_le_gt_dec (round_half_even p) (round_half_even q)) as [|Hgt]; auto.
  exfalso.
  destruct (round_half_even_spec p) as (A1 & A2 & A3).
  destruct (round_half_even_spec q) as (B1 & B2 & B3).
  assert (round_half_even q + 1 <= round_half_even p)%Z as Hle by lia.
  rewrite Zle_Qle, inject_Z_plus in Hle. change (inject_Z 1) with 1 in Hle.
  assert (p == q) as E by lra.
  assert (round_half_even p = round_half_even q) by now apply round_half_even_compat. lia.
Qed.

Lemma td_to_num_us u us : td_to_num u us * inject_Z (us_per u) == inject_Z us.
Proof.
  unfold td_to_num. destruct u; cbn [sec_factor us_per];
    unfold Qdiv, Qinv, Qmult, Qeq, inject_Z; cbn [Qnum Qden]; lia.
Qed.

Lemma convert_round_trip u us : num_to_td u (td_to_num u us) = us.
Proof. unfold num_to_td. apply round_half_even_int, td_to_num_us. Qed.

(** [unit_map] accepts exactly the documented names and gives the documented size. *)
Lemma unit_map_documented o n :
  (exists u, unit_map o = Some u /\ us_per u = n) <-> In (o, n) documented_units.
Proof.
  split.
  - intros (u & H & <-). destruct o as [s|]; unfold unit_map in H.
    + repeat (match type of H with
              | (if String.eqb s ?k then _ else _) = _ =>
                  destruct (String.eqb_spec s k) as [->|_]; [inversion H; subst; cbn; tauto|]
              end). discriminate.
    + inversion H; subst. cbn; tauto.
  - intros H. cbn in H. repeat destruct H as [H|H]; try (inversion H; subst; eexists; split; reflexivity).
Qed.

Lemma unit_map_None o :
  unit_map o = None <-> (forall n, ~ In (o, n) documented_units).
Proof.
  split.
  - intros H n Hin. apply unit_map_documented in Hin as (u & Hu & _). congruence.
  - intros H. destruct (unit_map o) as [u|] eqn:E; auto.
    exfalso. apply (H (us_per u)). apply unit_map_documented. eauto.
Qed.

Lemma unit_map_name u : unit_map (Some (unit_name u)) = Some u.
Proof. destruct u; reflexivity. Qed.

Lemma us_per_pos u : (0 < us_per u)%Z.
Proof. destruct u; reflexivity. Qed.

(** convert_time: the accepted inputs and the results. *)
Lemma convert_time_err t o :
  (forall n, ~ In (o, n) documented_units) -> convert_time t o = Err UserConfigError.
Proof. intros H. apply unit_map_None in H. unfold convert_time. now rewrite H. Qed.

Lemma convert_time_td us o n :
  In (o, n) documented_units ->
  exists q, convert_time (TD us) o = Ok (TN q) /\ q * inject_Z n == inject_Z us.
Proof.
  intros H. apply unit_map_documented in H as (u & Hu & <-). unfold convert_time. rewrite Hu.
  eexists; split; [reflexivity|]. apply td_to_num_us.
Qed.

Lemma convert_time_num q o n :
  In (o, n) documented_units ->
  exists us, convert_time (TN q) o = Ok (TD us) /\ nearest_even (q * inject_Z n) us.
Proof.
  intros H. apply unit_map_documented in H as (u & Hu & <-). unfold convert_time. rewrite Hu.
  eexists; split; [reflexivity|]. apply round_half_even_spec.
Qed.

Lemma convert_time_round_trip us o n :
  In (o, n) documented_units ->
  rbind (convert_time (TD us) o) (fun t => convert_time t o) = Ok (TD us).
Proof.
  intros H. apply unit_map_documented in H as (u & Hu & <-). unfold convert_time. rewrite Hu.
  cbn [rbind]. now rewrite convert_round_trip.
Qed.

(** Stress specification durations. *)
Lemma strs_duration_td us o :
  strs_duration (TD us) o = if Z.eqb us 0 then Err UserConfigError else Ok us.
Proof. reflexivity. Qed.

Lemma strs_duration_num q o :
  (exists us, strs_duration (TN q) o = Ok us /\ us <> 0%Z /\
              exists n, In (o, n) documented_units /\ nearest_even (q * inject_Z n) us)
  \/ (strs_duration (TN q) o = Err UserConfigError /\
      ((forall n, ~ In (o, n) documented_units) \/
       exists n, In (o, n) documented_units /\ nearest_even (q * inject_Z n) 0)).
Proof.
  unfold strs_duration, convert_time. destruct (unit_map o) as [u|] eqn:E.
  - cbn [rbind]. assert (In (o, us_per u) documented_units) as Hd
      by (apply unit_map_documented; eauto).
    pose proof (round_half_even_spec (q * inject_Z (us_per u))) as Hs.
    fold (num_to_td u q) in *. destruct (Z.eqb_spec (num_to_td u q) 0) as [Hz|Hz].
    + right. split; auto. right. exists (us_per u). split; auto. unfold num_to_td in *. now rewrite <- Hz.
    + left. eexists; split; [reflexivity|]. split; auto. exists (us_per u). split; auto.
  - right. split; auto. left. now apply unit_map_None.
Qed.
