(** The range of timedeltas. *)
From Coq Require Import Lia.
From Verif Require Import M_Base M_Num M_Nd M_RandVar M_Latent M_Time M_TestSpec M_Device M_Report M_Env M_Sim M_Range
  S_Latent S_Device S_Time S_TestSpec S_Sim S_Range L_Base L_Time L_TestSpec L_Sim L_Sim2.
Open Scope Z_scope.

Lemma timedelta_ok z : td_ok z -> timedelta z = Ok z.
Proof.
  intros [A B]. unfold timedelta. destruct (Z.leb_spec (Z.abs (z / us_per_day)) 999999999) as [|G]; auto. exfalso.
  assert (- 999999999 <= z / us_per_day) by (apply Z.div_le_lower_bound; unfold us_per_day; lia).
  assert (z / us_per_day < 1000000000) by (apply Z.div_lt_upper_bound; unfold us_per_day; lia). lia.
Qed.
Lemma timedelta_bad z : ~ td_ok z -> timedelta z = Err OverflowError.
Proof.
  intros N. unfold timedelta. destruct (Z.leb_spec (Z.abs (z / us_per_day)) 999999999) as [G|]; auto. exfalso. apply N.
  pose proof (Z.mul_div_le z us_per_day ltac:(reflexivity)). pose proof (Z.mul_succ_div_gt z us_per_day ltac:(reflexivity)).
  unfold td_ok, us_per_day in *. lia.
Qed.
Lemma td_ok_dec z : td_ok z \/ ~ td_ok z.
Proof. unfold td_ok. lia. Qed.
Lemma td_ok_0 : td_ok 0.
Proof. unfold td_ok. lia. Qed.

Section Append.
Context {V : Type}.
Implicit Types (l : list (step V)) (a : to_add V).

Lemma stress_cons s l : stress_time (s :: l) = step_time s + stress_time l.
Proof. reflexivity. Qed.
Lemma sum_ok l : forall t, (forall k, td_ok (t + stress_time (firstn k l))) -> sum_r t l = Ok (t + stress_time l).
Proof.
  induction l as [|s l IH]; intros t K; [cbn; f_equal; lia|]. rewrite stress_cons.
  assert (K' : forall k, td_ok (t + step_time s + stress_time (firstn k l))).
  { intros k. specialize (K (S k)). cbn [firstn] in K. rewrite stress_cons in K. now rewrite <- Z.add_assoc. }
  destruct s as [m|x|o]; cbn [sum_r step_time] in *.
  - rewrite IH; [f_equal; lia|]. intros k. specialize (K' k). now rewrite Z.add_0_r in K'.
  - rewrite timedelta_ok; [cbn [rbind]; rewrite IH; [f_equal; lia|exact K']|]. specialize (K' 0%nat). cbn in K'. unfold stress_time in K'. cbn in K'. now rewrite Z.add_0_r in K'.
  - rewrite IH; [f_equal; lia|]. intros k. specialize (K' k). now rewrite Z.add_0_r in K'.
Qed.
Lemma sum_bad l : forall t k, td_ok t -> ~ td_ok (t + stress_time (firstn k l)) -> sum_r t l = Err OverflowError.
Proof.
  induction l as [|s l IH]; intros t k T B.
  - exfalso. apply B. destruct k; unfold stress_time; cbn; now rewrite Z.add_0_r.
  - destruct k as [|k]; [exfalso; apply B; unfold stress_time; cbn; now rewrite Z.add_0_r|]. cbn [firstn] in B. rewrite stress_cons, Z.add_assoc in B.
    destruct s as [m|x|o]; cbn [sum_r step_time] in *; [rewrite Z.add_0_r in B; eauto| |rewrite Z.add_0_r in B; eauto].
    destruct (td_ok_dec (t + ss_dur x)) as [O|N]; [rewrite timedelta_ok by auto; cbn [rbind]; eauto|now rewrite timedelta_bad].
Qed.
Lemma add_ok t a : plain a -> only_meas a = false -> (forall k, td_ok (t + stress_time (firstn k (items a)))) ->
  add_time_r t a = Ok (t + stress_time (items a)).
Proof.
  intros P M K. destruct a as [[m|x|o]|l]; cbn [add_time_r]; try discriminate; try destruct P.
  - specialize (K 1%nat). cbn [items firstn] in *. rewrite stress_cons in *. cbn [step_time] in *. unfold stress_time in *. cbn in *. rewrite Z.add_0_r in *. now apply timedelta_ok.
  - now apply sum_ok.
Qed.
Lemma add_bad t a k : plain a -> only_meas a = false -> td_ok t -> ~ td_ok (t + stress_time (firstn k (items a))) -> add_time_r t a = Err OverflowError.
Proof.
  intros P M T K. destruct a as [[m|x|o]|l]; cbn [add_time_r]; try discriminate; try destruct P; [|eapply sum_bad; eauto].
  apply timedelta_bad. intros O. apply K. destruct k as [|k]; [unfold stress_time; cbn; now rewrite Z.add_0_r|]. cbn [items firstn]. rewrite firstn_nil. unfold stress_time. cbn. now rewrite Z.add_0_r.
Qed.

Lemma loop_same a dur : plain a -> only_meas a = false -> sums_ok a dur -> forall fuel old n,
  append_loop_r fuel old (Z.of_nat n * stress_time (items a)) a dur = append_loop fuel old (Z.of_nat n * stress_time (items a)) a dur.
Proof.
  intros P M K. induction fuel as [|fuel IH]; intros old n; cbn [append_loop_r append_loop]; auto.
  destruct (Z.ltb_spec (Z.of_nat n * stress_time (items a)) dur) as [L|]; auto.
  rewrite add_time_plain by auto. rewrite add_ok; auto.
  - replace (Z.of_nat n * stress_time (items a) + stress_time (items a)) with (Z.of_nat (S n) * stress_time (items a)) by lia. apply IH.
  - intros k. destruct (td_ok_dec (Z.of_nat n * stress_time (items a) + stress_time (firstn k (items a)))) as [O|B]; auto. exfalso. exact (K n k (conj L B)).
Qed.
(** The first pass whose sums leave the range. *)
Definition first_bad a dur n : Prop := (exists k, bad_sum a dur n k) /\ forall m k, (m < n)%nat -> ~ bad_sum a dur m k.
Lemma firstn_big {A} (l : list A) k : (length l < k)%nat -> firstn k l = firstn (length l) l.
Proof. intros L. rewrite !firstn_all2; auto; lia. Qed.
Lemma bad_dec a dur n : (exists k, bad_sum a dur n k) \/ forall k, ~ bad_sum a dur n k.
Proof.
  destruct (Z.ltb_spec (Z.of_nat n * stress_time (items a)) dur) as [L|G]; [|right; intros k [B _]; lia].
  assert (D : forall m, (exists k, bad_sum a dur n k) \/ forall k, (k <= m)%nat -> ~ bad_sum a dur n k).
  { induction m as [|m [IH|IH]]; auto.
    - destruct (td_ok_dec (Z.of_nat n * stress_time (items a) + stress_time (firstn 0 (items a)))) as [O|B]; [right|left; exists 0%nat; split; auto].
      intros k Lk [_ N]. assert (k = 0%nat) as -> by lia. auto.
    - destruct (td_ok_dec (Z.of_nat n * stress_time (items a) + stress_time (firstn (S m) (items a)))) as [O|B]; [right|left; exists (S m); split; auto].
      intros k Lk Hb. destruct (Nat.eq_dec k (S m)) as [->|Ne]; [destruct Hb; auto|]. exact (IH k ltac:(lia) Hb). }
  destruct (D (length (items a))) as [E|N]; auto. right. intros k Hb. destruct (Nat.leb_spec k (length (items a))) as [A|A]; [exact (N k A Hb)|].
  apply (N (length (items a)) (le_n _)). destruct Hb as [B1 B2]. split; auto. now rewrite firstn_big in B2.
Qed.
Lemma first_bad_exists a dur n k : bad_sum a dur n k -> exists m, first_bad a dur m.
Proof.
  revert k. induction n as [n IH] using (well_founded_induction lt_wf). intros k B.
  assert (D : forall j, (j <= n)%nat -> (exists m k, (m < j)%nat /\ bad_sum a dur m k) \/ forall m k, (m < j)%nat -> ~ bad_sum a dur m k).
  { induction j as [|j IHj]; intros Lj; [right; intros; lia|]. destruct IHj as [(m & q & Lm & Hb)|N]; [lia|left; exists m, q; split; auto; lia|].
    destruct (bad_dec a dur j) as [(q & Hb)|Nj]; [left; exists j, q; split; auto|]. right. intros m q Lm Hb.
    destruct (Nat.eq_dec m j) as [->|Ne]; [exact (Nj q Hb)|exact (N m q ltac:(lia) Hb)]. }
  destruct (D n (le_n _)) as [(m & q & Lm & Hb)|N]; [exact (IH m Lm q Hb)|]. exists n. split; eauto.
Qed.
Lemma cycle_ok a dur n : (forall k, ~ bad_sum a dur n k) -> Z.of_nat n * stress_time (items a) < dur -> td_ok (Z.of_nat (S n) * stress_time (items a)).
Proof.
  intros N L. destruct (td_ok_dec (Z.of_nat (S n) * stress_time (items a))) as [O|B]; auto. exfalso. apply (N (length (items a))). split; auto.
  rewrite firstn_all. intros O. apply B. now replace (Z.of_nat (S n) * stress_time (items a)) with (Z.of_nat n * stress_time (items a) + stress_time (items a)) by lia.
Qed.
(** [j * c] is between 0 and [n * c]. *)
Lemma below_dur c dur n j : 0 < dur -> Z.of_nat n * c < dur -> (j <= n)%nat -> Z.of_nat j * c < dur.
Proof. intros D L Lj. destruct (Z.leb_spec c 0); nia. Qed.
Lemma bad_dur a dur n k : bad_sum a dur n k -> 0 < dur \/ n <> 0%nat.
Proof. intros [B _]. destruct n; [left; lia|right; auto]. Qed.
Lemma loop_bad a dur n : plain a -> only_meas a = false -> 0 < dur -> first_bad a dur n -> forall fuel old j, (n - j < fuel)%nat -> (j <= n)%nat ->
  append_loop_r fuel old (Z.of_nat j * stress_time (items a)) a dur = Some (old ++ cycles (S n - j) (items a), Err OverflowError).
Proof.
  intros P M D [(k & [B1 B2]) Mn]. induction fuel as [|fuel IH]; intros old j F Lj; [lia|]. cbn [append_loop_r].
  pose proof (below_dur _ dur n j D B1 Lj) as L. destruct (Z.ltb_spec (Z.of_nat j * stress_time (items a)) dur) as [_|]; [|lia].
  assert (T : td_ok (Z.of_nat j * stress_time (items a))).
  { destruct j as [|j]; [exact td_ok_0|]. apply (cycle_ok a dur j); [intros q; apply Mn; lia|]. apply (below_dur _ dur n); auto; lia. }
  destruct (Nat.eq_dec j n) as [->|Ne].
  - rewrite (add_bad _ _ k) by auto. replace (S n - n)%nat with 1%nat by lia. cbn [cycles]. now rewrite app_nil_r, add_once_items.
  - rewrite add_ok; auto.
    + replace (Z.of_nat j * stress_time (items a) + stress_time (items a)) with (Z.of_nat (S j) * stress_time (items a)) by lia.
      rewrite IH by lia. rewrite add_once_items, <- app_assoc. replace (S n - j)%nat with (S (S n - S j)) by lia. reflexivity.
    + intros q. destruct (td_ok_dec (Z.of_nat j * stress_time (items a) + stress_time (firstn q (items a)))) as [O|B]; auto. exfalso.
      exact (Mn j q ltac:(lia) (conj L B)).
Qed.

Lemma loop_duration_same d u dur : requested d u dur -> td_ok dur -> loop_duration_r d u = Ok dur.
Proof.
  intros Rq T. apply requested_iff in Rq. destruct d as [z|q]; [exact Rq|]. unfold loop_duration_r, convert_time_r. cbn [loop_duration] in Rq.
  destruct (convert_time (TN q) u) as [t|e]; [|discriminate]. cbn [rbind] in *. destruct t as [us|?]; [|discriminate]. injection Rq as ->. cbn [checked]. now rewrite timedelta_ok.
Qed.
Lemma loop_duration_over q u dur : requested (TN q) u dur -> ~ td_ok dur -> loop_duration_r (TN q) u = Err OverflowError.
Proof.
  intros Rq T. apply requested_iff in Rq. unfold loop_duration_r, convert_time_r. cbn [loop_duration] in Rq.
  destruct (convert_time (TN q) u) as [t|e]; [|discriminate]. cbn [rbind] in *. destruct t as [us|?]; [|discriminate]. injection Rq as ->. cbn [checked]. now rewrite timedelta_bad.
Qed.
Lemma append_in_range fuel old a d u dur : plain a -> requested d u dur -> td_ok dur -> sums_ok a dur ->
  append_steps_r fuel old a (Some d) u = append_steps fuel old a (Some d) u.
Proof.
  intros P Rq T K. unfold append_steps_r, append_steps. rewrite (loop_duration_same _ _ _ Rq T), (proj2 (requested_iff _ _ _) Rq).
  destruct (dur =? 0); auto. destruct (only_meas a) eqn:M; auto. pose proof (loop_same a dur P M K fuel old 0) as L. cbn [Z.of_nat Z.mul] in L. now rewrite L.
Qed.
Lemma append_out_of_range old a d u dur n k : plain a -> has_stress_or_other (items a) -> requested d u dur -> td_ok dur -> 0 < dur -> bad_sum a dur n k ->
  exists m, (m <= n)%nat /\ forall fuel, (m < fuel)%nat -> append_steps_r fuel old a (Some d) u = Some (old ++ cycles (S m) (items a), Err OverflowError).
Proof.
  intros P (s & Hs & Ns) Rq T D B. destruct (first_bad_exists a dur n k B) as (m & F). exists m. split.
  { destruct (Nat.leb_spec m n) as [|G]; auto. destruct F as [_ F]. exfalso. exact (F n k G B). }
  intros fuel Lf. unfold append_steps_r. rewrite (loop_duration_same _ _ _ Rq T). destruct (Z.eqb_spec dur 0); [lia|].
  assert (M : only_meas a = false).
  { destruct a as [x|l]; cbn [only_meas items] in *; [destruct Hs as [<-|[]]; auto|]. destruct (forallb is_meas l) eqn:E; auto. rewrite forallb_forall in E. specialize (E s Hs). congruence. }
  rewrite M. pose proof (loop_bad a dur m P M D F fuel old 0 ltac:(lia) ltac:(lia)) as L. cbn [Z.of_nat Z.mul] in L. rewrite L. now rewrite Nat.sub_0_r.
Qed.
Lemma net_negative_bad a dur : 0 < dur -> stress_time (items a) < 0 -> exists n k, bad_sum a dur n k.
Proof.
  intros D C. exists (Z.to_nat (1000000000 * 86400000000)), (length (items a)). unfold bad_sum, td_ok. rewrite firstn_all, Z2Nat.id by lia. split; lia.
Qed.
Lemma stress_firstn_le l : (forall s, In s l -> 0 <= step_time s) -> forall k, 0 <= stress_time (firstn k l) <= stress_time l.
Proof.
  induction l as [|s l IH]; intros K k; [destruct k; cbn; lia|]. assert (Kl : forall x, In x l -> 0 <= step_time x) by (intros; apply K; now right).
  specialize (K s (or_introl eq_refl)). pose proof (IH Kl 0%nat). destruct k as [|k]; cbn [firstn] in *; rewrite ?stress_cons; [unfold stress_time at 1 2; cbn [map total]; lia|]. specialize (IH Kl k). lia.
Qed.
Lemma short_loops a dur : (forall s, In s (items a) -> 0 <= step_time s) -> td_ok dur -> td_ok (dur + stress_time (items a)) -> sums_ok a dur.
Proof.
  intros K T1 T2 n k [L B]. apply B. pose proof (stress_firstn_le _ K k). assert (0 <= Z.of_nat n * stress_time (items a)) by (apply Z.mul_nonneg_nonneg; lia).
  unfold td_ok in *. lia.
Qed.
Lemma zero_cycle_sums a dur : 0 < dur -> stress_time (items a) = 0 -> ((forall k, td_ok (stress_time (firstn k (items a)))) <-> sums_ok a dur).
Proof.
  intros D Z. unfold sums_ok, bad_sum. rewrite Z. split.
  - intros K n k [_ B]. apply B. rewrite Z.mul_0_r. apply K.
  - intros K k. destruct (td_ok_dec (stress_time (firstn k (items a)))) as [|B]; auto. exfalso. apply (K 0%nat k). split; [lia|exact B].
Qed.
Lemma append_forever old a d u dur : plain a -> has_stress_or_other (items a) -> requested d u dur -> td_ok dur -> dur <> 0 ->
  ((forall fuel, append_steps_r fuel old a (Some d) u = None) <-> (0 < dur /\ stress_time (items a) = 0 /\ forall k, td_ok (stress_time (firstn k (items a))))).
Proof.
  intros P O Rq T N. split.
  - intros F. destruct (Z.ltb_spec dur 0) as [Ng|Ps].
    + exfalso. specialize (F 0%nat). unfold append_steps_r in F. rewrite (loop_duration_same _ _ _ Rq T), (proj1 (only_meas_false a) O) in F.
      destruct (Z.eqb_spec dur 0); [lia|]. cbn [append_loop_r] in F. destruct (Z.ltb_spec 0 dur); [lia|]. destruct (0 mod dur =? 0); discriminate.
    + assert (D : 0 < dur) by lia.
      assert (NB : forall n k, ~ bad_sum a dur n k).
      { intros n k B. destruct (append_out_of_range old a d u dur n k P O Rq T D B) as (m & _ & E). specialize (E (S m) ltac:(lia)). rewrite F in E. discriminate. }
      split; [exact D|]. destruct (Z.lt_trichotomy (stress_time (items a)) 0) as [C|[C|C]].
      * destruct (net_negative_bad a dur D C) as (n & k & B). destruct (NB n k B).
      * split; [exact C|]. apply (zero_cycle_sums a dur D C). exact NB.
      * exfalso. destruct (proj2 (terminates_main old a d u dur P O Rq N) (or_intror C)) as (fuel & r & E).
        rewrite <- (append_in_range fuel old a d u dur P Rq T NB), F in E. discriminate.
  - intros (D & C & K) fuel. rewrite (append_in_range fuel old a d u dur P Rq T); [|now apply (zero_cycle_sums a dur D C)]. apply (diverges_main old a d u dur); auto. lia.
Qed.
Lemma append_over fuel old a q u dur : requested (TN q) u dur -> ~ td_ok dur -> append_steps_r fuel old a (Some (TN q)) u = Some (old, Err OverflowError).
Proof. intros Rq T. unfold append_steps_r. now rewrite (loop_duration_over _ _ _ Rq T). Qed.
End Append.

Section Sim.
Context {V : Type} `{NumOps V} `{Rng V} `{HashOrd}.

Lemma run_r_cons e d i x l (st : simstate V) rep w :
  run_steps_r e d i (x :: l) st rep w =
  bind (sim_step_r e d (st, rep) (i, x)) (fun sr => run_steps_r e d (S i) l (fst sr) (snd sr)) w.
Proof. unfold run_steps_r. cbn [enumerate foldM]. unfold bind. destruct (sim_step_r e d (st, rep) (i, x) w) as [[[st' rep']|ex] w']; reflexivity. Qed.
(** A step with limited times: as without, unless its end time is out of range. *)
Lemma step_r_spec e d i x (st : simstate V) rep w z : st_elapsed st = TD z -> td_ok z ->
  sim_step_r e d (st, rep) (i, x) w =
  match sim_step e d (st, rep) (i, x) w with
  | (Ok sr, w') => if Z.leb (Z.abs ((z + step_time x) / us_per_day)) 999999999 then (Ok sr, w') else (Err OverflowError, w')
  | (Err ex, w') => (Err ex, w')
  end.
Proof.
  intros Ez T. unfold sim_step_r, sim_step. destruct x as [m|s|o]; cbn [snd fst step_time].
  - rewrite Z.add_0_r. pose proof (timedelta_ok z T) as Q. unfold timedelta in Q. destruct (Z.leb _ _); [|discriminate].
    destruct (meas_step e d i m st rep w) as [[sr|ex] w']; reflexivity.
  - unfold stress_step_r, stress_step, bind, lift, ret.
    destruct (gen_env_cond_vals e (ss_conds s) _ _ _ true 1 1 w) as [[conds|ex] w1]; [|reflexivity].
    destruct (foldM (stress_prm conds rep (ss_dur s)) (deg_prms d) st w1) as [[st1|ex] w2] eqn:F; [|reflexivity].
    destruct (stress_fold_same _ _ _ _ _ _ _ _ F) as (_ & E1 & _). rewrite E1, Ez. cbn [add_time_td rbind checked]. unfold timedelta.
    destruct (Z.leb (Z.abs ((z + ss_dur s) / us_per_day)) 999999999); cbn [rbind]; [|reflexivity]. cbn [sub_time_td rbind checked].
    rewrite timedelta_ok by (now replace (z + ss_dur s - ss_dur s) with z by lia). reflexivity.
  - rewrite Z.add_0_r. pose proof (timedelta_ok z T) as Q. unfold timedelta in Q. destruct (Z.leb _ _); [|discriminate]. reflexivity.
Qed.
Lemma in_range_leb z : td_ok z <-> Z.leb (Z.abs (z / us_per_day)) 999999999 = true.
Proof.
  split; intros K.
  - pose proof (timedelta_ok z K) as Q. unfold timedelta in Q. destruct (Z.leb _ _); auto. discriminate.
  - destruct (td_ok_dec z) as [O|N]; auto. exfalso. pose proof (timedelta_bad z N) as Q. unfold timedelta in Q. rewrite K in Q. discriminate.
Qed.
Lemma step_time_after e d i x (st : simstate V) rep w z st' rep' w' : st_elapsed st = TD z -> sim_step e d (st, rep) (i, x) w = (Ok (st', rep'), w') ->
  st_elapsed st' = TD (z + step_time x).
Proof.
  intros Ez E. destruct (run_same e d [x] i st rep w st' rep' w') as (_ & _ & [(y & Q & Q')|[Q N]] & _).
  - rewrite run_cons. unfold bind. rewrite E. reflexivity.
  - rewrite Ez in Q. injection Q as <-. rewrite Q'. f_equal. unfold stress_time. cbn. lia.
  - rewrite Q, Ez. f_equal. destruct x as [m|s|o]; cbn [step_time]; try lia. exfalso. apply (N s). now left.
Qed.
Lemma times_ok_cons z (x : step V) l : times_ok z (x :: l) -> td_ok (z + step_time x) /\ times_ok (z + step_time x) l.
Proof.
  intros K. split.
  - specialize (K 1%nat). cbn [firstn] in K. unfold stress_time in K. cbn in K. now rewrite Z.add_0_r in K.
  - intros k. specialize (K (S k)). cbn [firstn] in K. rewrite stress_cons in K. now rewrite <- Z.add_assoc.
Qed.
Lemma run_in_range e d l : forall i (st : simstate V) rep w z, st_elapsed st = TD z -> td_ok z -> times_ok z l ->
  run_steps_r e d i l st rep w = run_steps e d i l st rep w.
Proof.
  induction l as [|x l IH]; intros i st rep w z Ez T K; [reflexivity|]. rewrite run_r_cons, run_cons. unfold bind. rewrite (step_r_spec e d i x st rep w z Ez T).
  destruct (times_ok_cons _ _ _ K) as [K1 K2]. rewrite (proj1 (in_range_leb _) K1).
  destruct (sim_step e d (st, rep) (i, x) w) as [[[st' rep']|ex] w'] eqn:E; auto. cbn [fst snd]. apply (IH _ _ _ _ (z + step_time x)); auto. eapply step_time_after; eauto.
Qed.
Lemma run_in_range_inv e d l : forall i (st : simstate V) rep w z r w', st_elapsed st = TD z -> td_ok z ->
  run_steps_r e d i l st rep w = (Ok r, w') -> run_steps e d i l st rep w = (Ok r, w') /\ times_ok z l.
Proof.
  induction l as [|x l IH]; intros i st rep w z r w' Ez T E.
  - split; [exact E|]. intros k. destruct k; unfold stress_time; cbn; now rewrite Z.add_0_r.
  - rewrite run_r_cons in E. rewrite run_cons. unfold bind in *. rewrite (step_r_spec e d i x st rep w z Ez T) in E.
    destruct (sim_step e d (st, rep) (i, x) w) as [[[st' rep']|ex] w1] eqn:S1; [|discriminate].
    destruct (Z.leb _ _) eqn:B; [|discriminate]. apply in_range_leb in B. cbn [fst snd] in *.
    destruct (IH _ _ _ _ (z + step_time x) _ _ (step_time_after _ _ _ _ _ _ _ _ _ _ _ Ez S1) B E) as [A K]. split; auto.
    intros [|k]; [unfold stress_time; cbn; now rewrite Z.add_0_r|]. cbn [firstn]. rewrite stress_cons, Z.add_assoc. apply K.
Qed.
Lemma run_out_of_range e d l : forall i (st : simstate V) rep w z r w', st_elapsed st = TD z -> td_ok z -> ~ times_ok z l ->
  run_steps e d i l st rep w = (Ok r, w') -> exists w1, run_steps_r e d i l st rep w = (Err OverflowError, w1).
Proof.
  induction l as [|x l IH]; intros i st rep w z r w' Ez T K E.
  - exfalso. apply K. intros k. destruct k; unfold stress_time; cbn; now rewrite Z.add_0_r.
  - rewrite run_cons in E. rewrite run_r_cons. unfold bind in *. rewrite (step_r_spec e d i x st rep w z Ez T).
    destruct (sim_step e d (st, rep) (i, x) w) as [[[st' rep']|ex] w1] eqn:S1; [|discriminate].
    destruct (Z.leb _ _) eqn:B; [|eauto]. apply in_range_leb in B. cbn [fst snd] in *.
    apply (IH _ _ _ _ (z + step_time x) r w'); auto; [eapply step_time_after; eauto|]. intros K'. apply K.
    intros [|k]; [unfold stress_time; cbn; now rewrite Z.add_0_r|]. cbn [firstn]. rewrite stress_cons, Z.add_assoc. apply K'.
Qed.
(** Every outcome: an overflow, or the outcome without limits. *)
Lemma run_r_cases e d l : forall i (st : simstate V) rep w z, st_elapsed st = TD z -> td_ok z ->
  run_steps_r e d i l st rep w = run_steps e d i l st rep w \/ (fst (run_steps_r e d i l st rep w) = Err OverflowError /\ ~ times_ok z l).
Proof.
  induction l as [|x l IH]; intros i st rep w z Ez T; [now left|]. rewrite run_r_cons, run_cons. unfold bind. rewrite (step_r_spec e d i x st rep w z Ez T).
  destruct (sim_step e d (st, rep) (i, x) w) as [[[st' rep']|ex] w1] eqn:S1; [|now left].
  destruct (Z.leb _ _) eqn:B.
  - apply in_range_leb in B. cbn [fst snd]. destruct (IH (S i) st' rep' w1 (z + step_time x) (step_time_after _ _ _ _ _ _ _ _ _ _ _ Ez S1) B) as [A|[A N]]; [now left|].
    right. split; auto. intros K. apply N. now apply times_ok_cons in K.
  - right. split; auto. intros K. apply times_ok_cons in K as [K _]. apply in_range_leb in K. congruence.
Qed.


Lemma sim_r_runs e d steps C L init w z : starts_at init z ->
  (exists ex w1, simulate e d steps C L init w = (Err ex, w1) /\ simulate_r e d steps C L init w = (Err ex, w1)) \/
  (exists st0 rep0 w0, st_elapsed st0 = TD z /\ simulate e d steps C L init w = run_steps e d 0 steps st0 rep0 w0 /\
     simulate_r e d steps C L init w = run_steps_r e d 0 steps st0 rep0 w0).
Proof.
  unfold simulate, simulate_r. destruct init as [st|]; cbn [starts_at]; intros Ez; [right; eauto 6|]. subst z. unfold bind.
  destruct (gen_init_state d None 1 1 (Some (report_init steps C L)) (TD 0) w) as [[r|ex] w1] eqn:G; [|left; eauto].
  destruct (init_time _ _ _ _ _ _ _ _ _ G) as (_ & _ & T). destruct (ir_report r) as [rep|]; [right|left; unfold raise; eauto]. exists (ir_state r), rep, w1. auto.
Qed.
Lemma sim_in_range e d steps C L init w z : starts_at init z -> td_ok z -> times_ok z steps ->
  simulate_r e d steps C L init w = simulate e d steps C L init w.
Proof.
  intros A T K. destruct (sim_r_runs e d steps C L init w z A) as [(ex & w1 & -> & ->)|(st0 & rep0 & w0 & Ez & -> & ->)]; auto. eapply run_in_range; eauto.
Qed.
Lemma sim_out_of_range e d steps C L init w z r w' : starts_at init z -> td_ok z -> ~ times_ok z steps ->
  simulate e d steps C L init w = (Ok r, w') -> exists w1, simulate_r e d steps C L init w = (Err OverflowError, w1).
Proof.
  intros A T K E. destruct (sim_r_runs e d steps C L init w z A) as [(ex & w1 & Q & _)|(st0 & rep0 & w0 & Ez & Q & ->)]; [congruence|].
  rewrite Q in E. eapply run_out_of_range; eauto.
Qed.
Lemma sim_r_cases e d steps C L init w z : starts_at init z -> td_ok z ->
  simulate_r e d steps C L init w = simulate e d steps C L init w \/ (fst (simulate_r e d steps C L init w) = Err OverflowError /\ ~ times_ok z steps).
Proof.
  intros A T. destruct (sim_r_runs e d steps C L init w z A) as [(ex & w1 & -> & ->)|(st0 & rep0 & w0 & Ez & -> & ->)]; auto. eapply run_r_cases; eauto.
Qed.
Lemma sim_r_ok e d steps C L init w z r w' : starts_at init z -> td_ok z ->
  simulate_r e d steps C L init w = (Ok r, w') -> simulate e d steps C L init w = (Ok r, w') /\ times_ok z steps.
Proof.
  intros A T E. destruct (sim_r_runs e d steps C L init w z A) as [(ex & w1 & _ & Q)|(st0 & rep0 & w0 & Ez & -> & Q)]; [congruence|].
  rewrite Q in E. eapply run_in_range_inv; eauto.
Qed.
End Sim.

(** ** Durations of stress steps *)
Lemma strs_number q u n us : In (u, n) documented_units -> nearest_even (q * inject_Z n) us ->
  (~ td_ok us -> strs_duration_r (TN q) u = Err OverflowError) /\
  (us = 0 -> strs_duration_r (TN q) u = Err UserConfigError) /\
  (td_ok us -> us <> 0 -> strs_duration_r (TN q) u = Ok us).
Proof.
  intros Hin Hn. assert (Rq : loop_duration (TN q) u = Ok us) by (apply requested_iff; exists n; auto). cbn [loop_duration] in Rq.
  unfold strs_duration_r, convert_time_r. destruct (convert_time (TN q) u) as [t|e]; [|discriminate]. cbn [rbind] in *. destruct t as [z|?]; [|discriminate]. injection Rq as ->.
  cbn [checked]. split; [|split].
  - intros N. now rewrite timedelta_bad.
  - intros ->. now rewrite (timedelta_ok 0 td_ok_0).
  - intros T N. rewrite timedelta_ok by auto. cbn [rbind]. apply Z.eqb_neq in N. now rewrite N.
Qed.
Lemma strs_unit q u : (forall n, ~ In (u, n) documented_units) -> strs_duration_r (TN q) u = Err UserConfigError.
Proof. intros N. unfold strs_duration_r, convert_time_r. now rewrite convert_time_err. Qed.
