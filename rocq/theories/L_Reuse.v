(** Dictionaries of counts that are used again. *)
From Coq Require Import Lia.
From Verif Require Import M_Base M_Num M_Nd M_RandVar M_Latent M_Time M_TestSpec M_Device M_Report M_Env M_Sim M_Reuse
  S_Device S_Sim S_Reuse L_Base L_Device L_Sim L_Sim2 L_Sim3.
Open Scope nat_scope.

Section L.
Context {V : Type} `{NumOps V}.
Implicit Types (d : device V).

Lemma at_least_refl c : at_least c c.
Proof. intros q n E. eauto. Qed.
Lemma at_least_trans a b c : at_least a b -> at_least b c -> at_least a c.
Proof. intros A B q n E. apply B in E as (m & E & L). apply A in E as (m' & E & L'). exists m'. split; auto. lia. Qed.
Lemma at_least_dset x q n c : at_least x c -> (forall m, dget x q = Some m -> m < n) -> at_least (dset x q n) c.
Proof.
  intros A K y m E. apply A in E as (m' & E & L). rewrite dget_dset. destruct (String.eqb q y) eqn:Eq; [|eauto].
  apply String.eqb_eq in Eq as ->. exists n. split; auto. apply K in E. lia.
Qed.

(** ** One circuit parameter *)
Definition one (p : string) (acc : dict nat * option (dict nat)) (q : string) : dict nat * option (dict nat) :=
  match dget (fst acc) p with
  | None => acc
  | Some n =>
      let small := match dget (fst acc) q with None => true | Some m => m <? n end in
      if small then (dset (fst acc) q n, option_map (fun r => dset r q n) (snd acc)) else acc
  end.
Lemma raise_one (c : lmdl V) names p acc : raise_counts c names p acc = fold_left (one p) (required_prms c names) acc.
Proof. reflexivity. Qed.
Lemma one_cases p acc q :
  fst (one p acc q) = fst acc /\ (forall n, dget (fst acc) p = Some n -> exists m, dget (fst acc) q = Some m /\ n <= m) \/
  exists n, dget (fst acc) p = Some n /\ (forall m, dget (fst acc) q = Some m -> m < n) /\ fst (one p acc q) = dset (fst acc) q n.
Proof.
  unfold one. destruct (dget (fst acc) p) as [n|] eqn:E; [|left; split; auto; intros; discriminate].
  destruct (dget (fst acc) q) as [m|] eqn:Eq; [destruct (Nat.ltb_spec m n) as [L|L]|]; cbn [fst].
  - right. exists n. split; auto. split; auto. intros m' Em. injection Em as <-. auto.
  - left. split; auto. intros n' En. injection En as <-. eauto.
  - right. exists n. split; auto. split; auto. intros m' Em. discriminate.
Qed.
Lemma ones_ind (P : dict nat -> Prop) p l : forall acc, P (fst acc) ->
  (forall x q n, P x -> In q l -> dget x p = Some n -> (forall m, dget x q = Some m -> m < n) -> P (dset x q n)) ->
  P (fst (fold_left (one p) l acc)).
Proof.
  induction l as [|q l IH]; intros acc A K; [exact A|]. cbn [fold_left]. apply IH.
  - destruct (one_cases p acc q) as [[-> _]|(n & E & L & ->)]; auto. apply K; auto. now left.
  - intros x q' n Px I. apply K; auto. now right.
Qed.
Lemma ones_grow p l acc : at_least (fst (fold_left (one p) l acc)) (fst acc).
Proof. apply (ones_ind (fun x => at_least x (fst acc))); [apply at_least_refl|]. intros. now apply at_least_dset. Qed.
Lemma one_progress p q acc n : dget (fst acc) p = Some n -> exists m, dget (fst (one p acc q)) q = Some m /\ n <= m.
Proof.
  intros E. destruct (one_cases p acc q) as [[-> K]|(n' & E' & L & ->)]; [auto|]. rewrite dget_dset_eq. rewrite E in E'. injection E' as <-. eauto.
Qed.
Lemma ones_progress p q l : forall acc n, In q l -> dget (fst acc) p = Some n -> exists m, dget (fst (fold_left (one p) l acc)) q = Some m /\ n <= m.
Proof.
  induction l as [|y l IH]; intros acc n I E; [destruct I|]. cbn [fold_left]. destruct I as [->|I].
  - destruct (one_progress p q acc n E) as (m & Em & L). destruct (ones_grow p l (one p acc q) q m Em) as (m' & ? & ?). exists m'. split; auto. lia.
  - destruct (ones_grow p [y] acc p n E) as (n' & E' & L). cbn [fold_left] in E'. destruct (IH _ n' I E') as (m & ? & ?). exists m. split; auto. lia.
Qed.

(** ** A call *)
Lemma required_uses d p (c : lmdl V) q : dget d p = Some (PCirc c) -> In q (required_prms c (dkeys d)) <-> uses d p q.
Proof.
  intros E. unfold required_prms, uses. rewrite filter_In, smem_In. split; [intros []; eauto|]. intros (c' & E' & A & B). rewrite E in E'. injection E' as <-. auto.
Qed.
Lemma augment_ind (P : dict nat -> Prop) d l : forall acc, P (fst acc) ->
  (forall x p q n, P x -> uses d p q -> dget x p = Some n -> (forall m, dget x q = Some m -> m < n) -> P (dset x q n)) ->
  P (fst (augment d acc l)).
Proof.
  unfold augment. induction l as [|p l IH]; intros acc A K; [exact A|]. cbn [fold_left]. apply IH; auto.
  destruct (dget d p) as [[q|c]|] eqn:E; auto. rewrite raise_one. apply ones_ind; auto. intros x q n Px I. apply K; auto. now apply (required_uses d p c q E).
Qed.
Lemma augment_grows d l acc : at_least (fst (augment d acc l)) (fst acc).
Proof. apply (augment_ind (fun x => at_least x (fst acc))); [apply at_least_refl|]. intros. now apply at_least_dset. Qed.
Lemma augment_cons d p l acc : augment d acc (p :: l) = augment d (augment d acc [p]) l.
Proof. reflexivity. Qed.
Lemma augment_progress d p q l : uses d p q -> forall acc n, In p l -> dget (fst acc) p = Some n ->
  exists m, dget (fst (augment d acc l)) q = Some m /\ n <= m.
Proof.
  intros U. induction l as [|y l IH]; intros acc n I E; [destruct I|]. rewrite augment_cons. destruct I as [->|I].
  - assert (G : exists m, dget (fst (augment d acc [p])) q = Some m /\ n <= m).
    { unfold augment. cbn [fold_left]. destruct U as (c & Ec & A & B). rewrite Ec, raise_one. apply ones_progress; auto. apply (required_uses d p c q Ec). exists c. auto. }
    destruct G as (m & Em & L). destruct (augment_grows d l (augment d acc [p]) q m Em) as (m' & ? & ?). exists m'. split; auto. lia.
  - destruct (augment_grows d [y] acc p n E) as (n' & E' & L). destruct (IH _ n' I E') as (m & ? & ?). exists m. split; auto. lia.
Qed.
Definition pass d (c : dict nat) : dict nat := fst (augment d (c, None) (dkeys c)).
Lemma pass_grows d c : at_least (pass d c) c.
Proof. exact (augment_grows d (dkeys c) (c, None)). Qed.
Lemma pass_sound d c0 c : (forall q n, dget c q = Some n -> wanted d c0 q n) -> forall q n, dget (pass d c) q = Some n -> wanted d c0 q n.
Proof.
  intros K. unfold pass. apply (augment_ind (fun x => forall q n, dget x q = Some n -> wanted d c0 q n)); [exact K|].
  intros x p q n Px U E _ y m. rewrite dget_dset. destruct (String.eqb_spec q y) as [->|]; [|apply Px]. intros [= <-]. eapply w_used; eauto.
Qed.
Lemma pass_progress d p q c n : uses d p q -> dget c p = Some n -> exists m, dget (pass d c) q = Some m /\ n <= m.
Proof.
  intros U E. apply (augment_progress d p q (dkeys c) U (c, None)); auto. apply dmem_keys. unfold dmem. now rewrite E.
Qed.
Definition closed d (c : dict nat) : Prop := forall p q n, uses d p q -> dget c p = Some n -> exists m, dget c q = Some m /\ n <= m.
Lemma pass_closed d c : closed d c -> pass d c = c.
Proof.
  intros K. unfold pass. apply (augment_ind (fun x => x = c)); [reflexivity|]. intros x p q n -> U E L. exfalso. destruct (K p q n U E) as (m & Em & Lm). apply L in Em. lia.
Qed.

(** ** Several calls *)
Fixpoint passes k d (c : dict nat) : dict nat := match k with O => c | S k => passes k d (pass d c) end.
Lemma passes_S k d : forall c, passes (S k) d c = pass d (passes k d c).
Proof. induction k as [|k IH]; intros c; [reflexivity|]. change (passes (S (S k)) d c) with (passes (S k) d (pass d c)). rewrite IH. reflexivity. Qed.
Lemma passes_add j k d c : passes (j + k) d c = passes k d (passes j d c).
Proof. revert c. induction j as [|j IH]; intros c; [reflexivity|]. cbn [Nat.add passes]. apply IH. Qed.
Lemma passes_grow k d c : at_least (passes k d c) c.
Proof. induction k as [|k IH]; [apply at_least_refl|]. rewrite passes_S. eapply at_least_trans; [apply pass_grows|exact IH]. Qed.
Lemma passes_sound k d c q n : dget (passes k d c) q = Some n -> wanted d c q n.
Proof. revert q n. induction k as [|k IH]; intros q n; [apply w_asked|]. rewrite passes_S. now apply pass_sound. Qed.
Lemma passes_closed k d c : closed d c -> passes k d c = c.
Proof. intros K. induction k as [|k IH]; auto. now rewrite passes_S, IH, pass_closed. Qed.

(** Chains of uses, last parameter first. *)
Inductive chain d (c : dict nat) (n : nat) : list string -> Prop :=
| ch_one p : dget c p = Some n -> chain d c n [p]
| ch_more p q r : chain d c n (p :: r) -> uses d p q -> chain d c n (q :: p :: r).
Lemma chain_suffix d c n l1 q l2 : chain d c n (l1 ++ q :: l2) -> chain d c n (q :: l2).
Proof.
  induction l1 as [|x l1 IH]; auto. intros Ch. apply IH. destruct l1 as [|y l1]; cbn [app] in *; inversion Ch; subst; auto.
Qed.
Lemma wanted_chain d c q n : wanted d c q n -> exists r, chain d c n (q :: r) /\ NoDup (q :: r).
Proof.
  intros W. induction W as [q n E|p q n W (r & Ch & N) U].
  - exists []. split; [now constructor|]. constructor; [intros []|constructor].
  - destruct (in_dec string_dec q (p :: r)) as [I|I].
    + apply in_split in I as (l1 & l2 & E). exists l2. rewrite E in Ch, N. split; [eapply chain_suffix; eauto|].
      clear -N. induction l1 as [|x l1 IH]; auto. apply IH. now inversion N.
    + exists (p :: r). split; [now constructor|]. now constructor.
Qed.
Lemma chain_keys d c n l : chain d c n l -> forall q p r, l = q :: p :: r -> incl l (dkeys d).
Proof.
  intros Ch. induction Ch as [p E|p q r Ch IH U]; intros q' p' r' E'; [discriminate|]. injection E' as <- <- <-. destruct U as (cm & Ec & A & B).
  intros x [<-|Hx]; auto. destruct r as [|y r].
  - destruct Hx as [<-|[]]. apply dmem_keys. unfold dmem. now rewrite Ec.
  - exact (IH _ _ _ eq_refl x Hx).
Qed.
Lemma chain_passes d c n l : chain d c n l -> forall q r, l = q :: r -> exists m, dget (passes (length r) d c) q = Some m /\ n <= m.
Proof.
  intros Ch. induction Ch as [p E|p q r Ch IH U]; intros q' r' E'; injection E' as <- <-; [exists n; auto|].
  destruct (IH p r eq_refl) as (m & Em & L). cbn [length]. rewrite passes_S. destruct (pass_progress d p q _ m U Em) as (m' & ? & ?). exists m'. split; auto. lia.
Qed.
Lemma passes_enough d c k q n : length d <= S k -> wanted d c q n -> exists m, dget (passes k d c) q = Some m /\ n <= m.
Proof.
  intros Lk W. destruct (wanted_chain d c q n W) as (r & Ch & N). destruct (chain_passes d c n _ Ch q r eq_refl) as (m & Em & L).
  assert (Lr : length r <= k).
  { destruct r as [|p r]; [apply Nat.le_0_l|]. pose proof (NoDup_incl_length N (chain_keys d c n _ Ch q p r eq_refl)) as Q. unfold dkeys in Q. rewrite map_length in Q. cbn [length] in *. lia. }
  replace k with (length r + (k - length r)) by lia. rewrite passes_add. destruct (passes_grow (k - length r) d (passes (length r) d c) q m Em) as (m' & ? & ?). exists m'. split; auto. lia.
Qed.
Lemma enough_greatest d c c' : (forall q n, dget c' q = Some n -> wanted d c q n) -> (forall q n, wanted d c q n -> exists m, dget c' q = Some m /\ n <= m) ->
  (forall q n, dget c' q = Some n <-> greatest (wanted d c q) n) /\ closed d c'.
Proof.
  intros A B. split.
  - intros q n. split.
    + intros E. split; [now apply A|]. intros m W. apply B in W as (m' & E' & L). rewrite E in E'. injection E' as <-. auto.
    + intros [W K]. destruct (B _ _ W) as (m & E & L). rewrite E. f_equal. apply A, K in E. lia.
  - intros p q n U E. apply B. eapply w_used; eauto.
Qed.
Lemma passes_final d c k : length d <= S k -> (forall q n, dget (passes k d c) q = Some n <-> greatest (wanted d c q) n) /\ closed d (passes k d c).
Proof. intros Lk. apply enough_greatest; [apply passes_sound|]. intros q n. now apply passes_enough. Qed.
Lemma plain_final d c : circuits_plain d -> (forall q n, dget (pass d c) q = Some n <-> greatest (wanted d c q) n) /\ closed d (pass d c).
Proof.
  intros Pl. apply enough_greatest; [exact (passes_sound 1 d c)|]. intros q n W.
  assert (G : dget c q = Some n \/ exists p, dget c p = Some n /\ uses d p q).
  { induction W as [q n E|p q n W [E|(p' & E & U')] U]; eauto. exfalso. destruct U' as (c1 & E1 & A1 & B1). destruct (Pl p' c1 p E1 A1 B1) as (x & Ex).
    destruct U as (c2 & E2 & _). congruence. }
  destruct G as [E|(p & E & U)]; [exact (pass_grows d c q n E)|exact (pass_progress d p q c n U E)].
Qed.

Context `{Rng V}.
Lemma call_dict d c C L t w : snd (fst (gen_init_call d c C L t w)) = pass d c.
Proof.
  unfold gen_init_call. destruct c as [|kv c]; [reflexivity|]. fold (pass d (kv :: c)). destruct (dev_init_state d (pass d (kv :: c)) C L w) as [[sc|ex] w']; reflexivity.
Qed.
Lemma calls_dict d l : same_device d l -> forall c w, snd (fst (gen_init_calls l c w)) = passes (length l) d c.
Proof.
  induction l as [|x l IH]; intros S c w; [reflexivity|]. cbn [gen_init_calls length passes].
  rewrite <- (call_dict d c (ic_chps x) (ic_lots x) (ic_time x) w). rewrite (S x (or_introl eq_refl)).
  destruct (gen_init_call d c (ic_chps x) (ic_lots x) (ic_time x) w) as [[o c1] w1]. cbn [fst snd].
  rewrite <- (IH (fun y I => S y (or_intror I)) c1 w1). destruct (gen_init_calls l c1 w1) as [[os c2] w2]. reflexivity.
Qed.
(** The call is gen_init_state, with the dictionary it leaves. *)
Lemma call_is_init d c C L t w : c <> [] ->
  gen_init_state d (Some c) C L None t w =
  match gen_init_call d c C L t w with
  | (Ok st, c', w') => (Ok (InitRes st c' None), w')
  | (Err ex, _, w') => (Err ex, w')
  end.
Proof.
  intros N. unfold gen_init_state, gen_init_call. destruct c as [|kv c]; [contradiction|]. cbn [option_map].
  match goal with |- context [augment ?a ?b ?c] => generalize (augment a b c) end. intros [devs rc]. cbn [fst]. unfold bind, ret.
  destruct (dev_init_state d devs C L w) as [[[st cnt]|ex] w'] eqn:G; [|reflexivity]. cbn [fst snd].
  assert (cnt = devs) as ->; [|reflexivity].
  unfold dev_init_state in G. apply bind_ok in G as (g & w1 & G & R). apply ret_ok in R as [R _]. apply gen_fold_counts in G. injection R as _ ->. exact G.
Qed.
Lemma calls_final d l c w os c' w' : same_device d l -> gen_init_calls l c w = (os, c', w') ->
  at_least c' c /\ (forall q n, dget c' q = Some n -> wanted d c q n) /\
  (length d <= S (length l) \/ (circuits_plain d /\ l <> []) ->
     (forall q n, dget c' q = Some n <-> greatest (wanted d c q) n) /\
     forall l2 w2, same_device d l2 -> snd (fst (gen_init_calls l2 c' w2)) = c').
Proof.
  intros S E. pose proof (calls_dict d l S c w) as Q. rewrite E in Q. cbn [fst snd] in Q. subst c'. split; [apply passes_grow|]. split; [apply passes_sound|].
  intros K. assert (F : (forall q n, dget (passes (length l) d c) q = Some n <-> greatest (wanted d c q) n) /\ closed d (passes (length l) d c)).
  { destruct K as [K|[Pl N]]; [now apply passes_final|]. destruct l as [|x l]; [contradiction|]. cbn [length passes]. destruct (plain_final d c Pl) as [A B].
    now rewrite (passes_closed (length l) d (pass d c) B). }
  destruct F as [A B]. split; [exact A|]. intros l2 w2 S2. rewrite (calls_dict d l2 S2). now apply passes_closed.
Qed.
(** A call that succeeds found all parameters of the device in the dictionary. *)
Lemma call_success d c C L t w st c' w' : dwf d -> gen_init_call d c C L t w = (Ok st, c', w') -> forall x, In x (dkeys d) -> exists n, dget c' x = Some n.
Proof.
  intros W E x I. pose proof (call_dict d c C L t w) as Q. rewrite E in Q. cbn [fst snd] in Q. unfold gen_init_call in E. destruct c as [|kv c]; [discriminate|].
  fold (pass d (kv :: c)) in E. rewrite <- Q in E. destruct (dev_init_state d c' C L w) as [[[st1 cnt]|ex] w1] eqn:G; [|discriminate].
  destruct (dev_init_ok d c' C L w st1 cnt w1 W G) as (_ & _ & _ & _ & K & _). apply dmem_Some. auto.
Qed.
End L.
