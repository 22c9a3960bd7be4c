(** Lemmas about models built from latent variables. *)
From Coq Require Import QArith Lia.
From Verif Require Import M_Base M_Num M_Nd M_RandVar M_Latent M_Device M_LatentMdl S_Latent S_Device S_LatentMdl L_Base L_Latent L_Nd L_Device.
Open Scope nat_scope.

Lemma nth_upd {A} (l : list A) : forall i j f, nth_error (upd l i f) j = if Nat.eqb i j then option_map f (nth_error l j) else nth_error l j.
Proof.
  induction l as [|x r IH]; intros i j f; cbn [upd].
  - destruct i, j; cbn; auto. now destruct (i =? j).
  - destruct i, j; cbn [upd nth_error Nat.eqb option_map]; auto.
Qed.
Lemma upd_length {A} (l : list A) : forall i f, length (upd l i f) = length l.
Proof. induction l; intros [|i] f; cbn; auto. Qed.

Section L.
Context {V : Type} `{NumOps V} `{Rng V}.

Lemma set_name_gen (o : lvar V) n D C L w : gen_latent (set_name o n) D C L w = gen_latent o D C L w.
Proof.
  destruct n as [s|]; [|destruct o; reflexivity].
  assert (E : forall a b c a' b' c' n nm ty de un op f g h,
    (forall q w, sample a q w = sample a' q w) -> (forall q w, sample b q w = sample b' q w) -> (forall q w, sample c q w = sample c' q w) ->
    gen_latent (LVar nm ty de un op a f b g c h) D C L w = gen_latent (LVar (V := V) n ty de un op a' f b' g c' h) D C L w).
  { intros a b c a' b' c' n nm ty de un op f g h A B E. unfold gen_latent. cbn [lv_lot lv_chp lv_dev lv_deter lv_type lv_op].
    unfold bind. rewrite E. destruct (sample c' L w) as [[?|?] w1]; auto. rewrite B. destruct (sample b' (L * C) w1) as [[?|?] w2]; auto.
    rewrite A. reflexivity. }
  destruct o as [nm ty de un op a f b g c h]. cbn [set_name lv_name lv_type lv_deter lv_unit lv_op lv_dev lv_devf lv_chp lv_chpf lv_lot lv_lotf].
  apply E; intros; repeat match goal with |- context [if ?x then _ else _] => destruct x end; rewrite ?sample_rename; auto.
Qed.
Lemma name_var_gen k (o : lvar V) D C L w : gen_latent (name_var k o) D C L w = gen_latent o D C L w.
Proof. unfold name_var. destruct (lv_name o) as [[|]|]; auto; apply set_name_gen. Qed.

Definition named_all (kwargs : dict nat) (objs : list (lvar V)) : list (lvar V) :=
  fold_left (fun os (kv : string * nat) => upd os (snd kv) (name_var (fst kv))) kwargs objs.

Lemma name_var_name k (o : lvar V) : lv_name (name_var k o) = match lv_name o with None | Some ""%string => Some k | n => n end.
Proof. unfold name_var. destruct (lv_name o) as [[|]|] eqn:E; auto. Qed.
Lemma named_named kwargs : forall (objs : list (lvar V)) i o s, s <> ""%string -> nth_error objs i = Some o -> lv_name o = Some s ->
  nth_error (named_all kwargs objs) i = Some o.
Proof.
  induction kwargs as [|[k j] r IH]; intros objs i o s Ns Ho Hn; cbn [named_all fold_left fst snd]; auto.
  fold (named_all r (upd objs j (name_var k))). apply IH with (s := s); auto. rewrite nth_upd, Ho. destruct (j =? i); auto.
  cbn [option_map]. unfold name_var. rewrite Hn. destruct s; congruence.
Qed.
Lemma named_all_spec kwargs : ~ In ""%string (dkeys kwargs) -> forall (objs : list (lvar V)) i o, nth_error objs i = Some o ->
  exists o', nth_error (named_all kwargs objs) i = Some o' /\ lv_name o' = named_after (lv_name o) kwargs i /\
    (o' = o \/ exists k, o' = set_name o (Some k)).
Proof.
  induction kwargs as [|[k j] r IH]; intros Nk objs i o Ho; cbn [named_all fold_left fst snd].
  - exists o. repeat split; auto. unfold named_after. cbn [first_key]. destruct (lv_name o) as [s|]; auto. now destruct (String.eqb s "").
  - fold (named_all r (upd objs j (name_var k))). cbn [dkeys map fst In] in Nk.
    destruct (Nat.eqb_spec j i) as [->|Nj].
    + assert (G : nth_error (upd objs i (name_var k)) i = Some (name_var k o)) by (rewrite nth_upd, Nat.eqb_refl, Ho; reflexivity).
      assert (Hnm : exists s, s <> ""%string /\ lv_name (name_var k o) = Some s /\ named_after (lv_name o) ((k, i) :: r) i = Some s).
      { rewrite name_var_name. unfold named_after. cbn [first_key]. rewrite Nat.eqb_refl.
        destruct (lv_name o) as [[|c s]|]; [exists k|exists (String c s)|exists k]; (split; [|split; reflexivity]).
        - intros ->. apply Nk. now left.
        - discriminate.
        - intros ->. apply Nk. now left. }
      destruct Hnm as (s & N1 & N2 & N3). exists (name_var k o). split; [now apply named_named with (s := s)|]. split; [congruence|].
      unfold name_var. destruct (lv_name o) as [[|]|]; eauto.
    + destruct (IH ltac:(tauto) (upd objs j (name_var k)) i o) as (o' & A & B & Co).
      { rewrite nth_upd. destruct (Nat.eqb_spec j i); congruence. }
      exists o'. split; [auto|]. split; [|auto]. rewrite B. unfold named_after. cbn [first_key].
      destruct (Nat.eqb_spec j i); [congruence|reflexivity].
Qed.
Lemma named_all_length kwargs : forall objs : list (lvar V), length (named_all kwargs objs) = length objs.
Proof. induction kwargs as [|[k j] r IH]; intros objs; cbn [named_all fold_left]; auto. fold (named_all r (upd objs (snd (k, j)) (name_var (fst (k, j))))). now rewrite IH, upd_length. Qed.

Definition build_vars (objs : list (lvar V)) : dict nat -> res (dict (lvar V)) :=
  fix go (l : dict nat) : res (dict (lvar V)) :=
    match l with
    | [] => Ok []
    | (k, i) :: r =>
        match nth_error objs i with
        | None => Err Unmodelled
        | Some o => rbind (go r) (fun d => Ok ((k, o) :: d))
        end
    end.
Lemma build_ok objs l : (forall k i, In (k, i) l -> i < length objs) ->
  exists d, build_vars objs l = Ok d /\ Forall2 (fun ki ko => fst ki = fst ko /\ nth_error objs (snd ki) = Some (snd ko)) l d.
Proof.
  induction l as [|[k i] r IH]; intros A; cbn [build_vars]; [eauto|].
  destruct (nth_error objs i) as [o|] eqn:E; [|apply nth_error_None in E; specialize (A k i ltac:(now left)); lia].
  destruct IH as (d & -> & F); [intros; eapply A; right; eauto|]. cbn [rbind]. eexists. split; [reflexivity|]. constructor; auto.
Qed.

Lemma lmdl_init_spec f (objs : list (lvar V)) kwargs objs' r :
  lmdl_init f objs kwargs = (objs', r) -> ~ In ""%string (dkeys kwargs) -> (forall k i, In (k, i) kwargs -> i < length objs) ->
  length objs' = length objs /\
  (forall i o, nth_error objs i = Some o -> exists o', nth_error objs' i = Some o' /\ lv_name o' = named_after (lv_name o) kwargs i /\
     forall D C L w, gen_latent o' D C L w = gen_latent o D C L w) /\
  exists m, r = Ok m /\ lm_eqn m = match f with Some g => g | None => eqn_x end /\
    Forall2 (fun ki ko => fst ki = fst ko /\ nth_error objs' (snd ki) = Some (snd ko)) kwargs (lm_vars m).
Proof.
  intros E Nk Hi. unfold lmdl_init in E. injection E as <- <-. fold (named_all kwargs objs). fold (build_vars (named_all kwargs objs)).
  split; [apply named_all_length|]. split.
  - intros i o Ho. destruct (named_all_spec kwargs Nk objs i o Ho) as (o' & A & B & Co). exists o'. repeat split; auto.
    intros. destruct Co as [->|[k ->]]; auto. apply set_name_gen.
  - destruct (build_ok (named_all kwargs objs) kwargs) as (d & -> & F); [intros; rewrite named_all_length; eauto|].
    eexists. split; [reflexivity|]. split; auto.
Qed.

(** Sampling such a model. *)
Lemma gen_latents_ext (vs vs' : dict (lvar V)) D C L : Forall2 (fun a b => fst a = fst b /\ forall w, gen_latent (snd a) D C L w = gen_latent (snd b) D C L w) vs vs' ->
  forall acc w, foldM (fun acc (kv : string * lvar V) => (a <- gen_latent (snd kv) D C L ;; ret (dset acc (fst kv) (PArr a)))%m) vs acc w =
                foldM (fun acc (kv : string * lvar V) => (a <- gen_latent (snd kv) D C L ;; ret (dset acc (fst kv) (PArr a)))%m) vs' acc w.
Proof.
  intros F. induction F as [|[k o] [k' o'] r r' [A B] F IH]; intros acc w; [reflexivity|]. cbn [fst snd] in *. subst k'. cbn [foldM fst snd].
  unfold bind. rewrite B. destruct (gen_latent o' D C L w) as [[a|e] w1]; auto. cbn [ret]. apply IH.
Qed.

(** ** Export *)
Lemma export_vars_ok target (vars : dict (lvar V)) : forall vals vars',
  export_vars target vars = (Ok vals, vars') ->
  Forall2 (fun ko kv => fst ko = fst kv /\ exists x o', cbi_export (snd ko) target = (Ok x, o') /\ snd kv = ALatent x) vars vals /\
  Forall2 (fun ko ko' => fst ko = fst ko' /\ snd (cbi_export (snd ko) target) = snd ko') vars vars'.
Proof.
  induction vars as [|[k o] r IH]; intros vals vars' E; cbn [export_vars] in E; [injection E as <- <-; auto|].
  destruct (cbi_export o target) as [[x|e] o'] eqn:Ex; [|discriminate].
  destruct (export_vars target r) as [[d|e] r'] eqn:Er; [|discriminate]. cbn [rbind] in E. injection E as <- <-.
  destruct (IH _ _ eq_refl) as [A B]. split; constructor; auto; cbn [fst snd]; split; auto; [eauto|now rewrite Ex].
Qed.
Lemma add_observed_get name obs : NoDup (dkeys obs) -> forall (vals : dict (cbi_arg V)) k,
  dget (add_observed name obs vals) k =
  match dget obs k with
  | Some p => if match name with Some n => String.eqb k n | None => false end then dget vals k else Some (AObs p)
  | None => dget vals k
  end.
Proof.
  induction obs as [|[k0 p0] r IH]; intros ND vals k; [reflexivity|]. cbn [dkeys map fst] in ND. inversion ND as [|? ? N1 N2]; subst.
  cbn [add_observed fold_left fst snd]. match goal with |- context [fold_left ?f r ?x] => change (fold_left f r x) with (add_observed name r x) end.
  rewrite IH by auto. cbn [dget]. destruct (String.eqb_spec k k0) as [->|Nk].
  - destruct (dget r k0) eqn:E; [exfalso; apply N1; apply dget_In in E; apply (in_map fst) in E; exact E|].
    destruct (match name with Some n => String.eqb k0 n | None => false end); auto. apply dget_dset_eq.
  - destruct (match name with Some n => String.eqb k0 n | None => false end); auto.
    rewrite dget_dset_neq by congruence. reflexivity.
Qed.
Lemma export_vars_length target (vars : dict (lvar V)) : dkeys (snd (export_vars target vars)) = dkeys vars.
Proof.
  induction vars as [|[k o] r IH]; auto. cbn [export_vars]. destruct (cbi_export o target) as [[x|e] o']; [|reflexivity].
  destruct (export_vars target r) as [d r']. cbn [snd dkeys map fst] in *. now f_equal.
Qed.
End L.
Section L2.
Context {V : Type} `{NumOps V}.
Lemma export_vars_all target (vars : dict (lvar V)) : (forall k o, In (k, o) vars -> exists x o', cbi_export o target = (Ok x, o')) ->
  exists vals, fst (export_vars target vars) = Ok vals.
Proof.
  induction vars as [|[k o] r IH]; intros A; [now exists []|]. cbn [export_vars].
  destruct (A k o ltac:(now left)) as (x & o' & ->). destruct IH as [vals Ev]; [intros; eapply A; right; eauto|].
  destruct (export_vars target r) as [d r']. cbn [fst] in Ev. subst d. cbn [rbind fst]. eauto.
Qed.
Lemma Forall2_keys {A B} (P : string * A -> string * B -> Prop) (d : dict A) (e : dict B) :
  Forall2 (fun a b => fst a = fst b /\ P a b) d e -> dkeys d = dkeys e.
Proof. intros F. unfold dkeys. induction F as [|a b r r' [E _] F IH]; cbn [map]; auto. congruence. Qed.
Lemma Forall2_dget {A B} (P : A -> B -> Prop) (d : dict A) (e : dict B) :
  Forall2 (fun a b => fst a = fst b /\ P (snd a) (snd b)) d e ->
  forall k, match dget d k, dget e k with Some a, Some b => P a b | None, None => True | _, _ => False end.
Proof.
  intros F k. induction F as [|[k1 a] [k2 b] r r' [E Q] F IH]; cbn [dget]; auto. cbn [fst snd] in *. subst k2. destruct (String.eqb k k1); auto.
Qed.

(** Successful exports in full. *)
Lemma mdl_export_ok name (m : lmdl V) target obs out m' : (forall o, obs = Some o -> NoDup (dkeys o)) ->
  mdl_export name m target obs = (Ok out, m') ->
  exists n o v, target = "pymc"%string /\ name = Some n /\ obs = Some o /\ dget o n = Some v /\
    co_name out = n /\ co_obs out = v /\ co_sigma out = 1%Q /\ lm_eqn m' = lm_eqn m /\
    (forall k, match dget (lm_vars m) k, dget (lm_vars m') k with Some a, Some b => b = snd (cbi_export a target) | None, None => True | _, _ => False end) /\
    (forall k p, k <> n -> dget o k = Some p -> dget (co_args out) k = Some (AObs p)) /\
    (forall k, k = n \/ dget o k = None ->
       match dget (lm_vars m) k with
       | Some a => exists x, fst (cbi_export a target) = Ok x /\ dget (co_args out) k = Some (ALatent x)
       | None => dget (co_args out) k = None
       end) /\
    accepts (lm_eqn m) (dkeys (co_args out)).
Proof.
  intros ND E. unfold mdl_export in E. destruct (export_vars target (lm_vars m)) as [[vals|e] vars'] eqn:Ev; [|discriminate]. cbn [rbind] in E.
  destruct obs as [o|]; [|discriminate]. specialize (ND o eq_refl).
  destruct (forallb (dmem (add_observed name o vals)) (e_req (lm_eqn m)) &&
     match e_kw (lm_eqn m) with Some _ => true | None => forallb (fun k => smem k (e_req (lm_eqn m) ++ e_opt (lm_eqn m))) (dkeys (add_observed name o vals)) end) eqn:Ac;
    [|discriminate]. destruct name as [n|]; [|discriminate].
  destruct (dgetE o n) as [v|] eqn:Eo; [|discriminate]. cbn [rbind] in E. apply dgetE_ok in Eo.
  destruct (String.eqb_spec target "pymc") as [->|]; [|discriminate]. injection E as <- <-.
  apply export_vars_ok in Ev as [A B]. exists n, o, v. cbn [co_name co_obs co_sigma co_args lm_eqn lm_vars]. do 8 (split; [now auto|]).
  assert (Gt : forall k, dget (add_observed (Some n) o vals) k = match dget o k with Some p => if String.eqb k n then dget vals k else Some (AObs p) | None => dget vals k end)
    by (intros; now rewrite add_observed_get).
  split; [|split; [|split]].
  - intros k. pose proof (Forall2_dget (fun a b => snd (cbi_export a "pymc") = b) _ _ B k) as G. cbn beta in G.
    destruct (dget (lm_vars m) k), (dget vars' k); auto.
  - intros k p Nk Hk. rewrite Gt, Hk. destruct (String.eqb_spec k n); [contradiction|reflexivity].
  - intros k Hk. assert (Ek : dget (add_observed (Some n) o vals) k = dget vals k).
    { rewrite Gt. destruct Hk as [->| ->]; [rewrite String.eqb_refl; now destruct (dget o n)|reflexivity]. }
    rewrite Ek. pose proof (Forall2_dget (fun a b => exists x o', cbi_export a "pymc" = (Ok x, o') /\ b = ALatent x) _ _ A k) as G. cbn beta in G.
    destruct (dget (lm_vars m) k) as [a|], (dget vals k) as [b|]; try contradiction; auto. destruct G as (x & o' & G1 & ->). exists x. now rewrite G1.
  - apply andb_prop in Ac as [A1 A2]. split.
    + intros k Hk. rewrite forallb_forall in A1. now apply dmem_keys, A1.
    + intros Kw k Hk. rewrite Kw in A2. rewrite forallb_forall in A2. apply in_app_or. now apply smem_In, A2.
Qed.
Lemma mdl_export_succeeds n (m : lmdl V) obs v : NoDup (dkeys obs) ->
  (forall k o, In (k, o) (lm_vars m) -> exists x o', cbi_export o "pymc" = (Ok x, o')) ->
  dget obs n = Some v ->
  accepts (lm_eqn m) (dkeys (lm_vars m) ++ filter (fun k => negb (String.eqb k n)) (dkeys obs)) ->
  exists out m', mdl_export (Some n) m "pymc" (Some obs) = (Ok out, m').
Proof.
  intros ND Hx Hn [A1 A2]. unfold mdl_export. destruct (export_vars_all "pymc" (lm_vars m) Hx) as [vals Ev].
  destruct (export_vars "pymc" (lm_vars m)) as [d vars'] eqn:Ee. cbn [fst] in Ev. subst d. cbn [rbind].
  apply export_vars_ok in Ee as [F _].
  assert (Gt : forall k, In k (dkeys (add_observed (Some n) obs vals)) <-> In k (dkeys (lm_vars m) ++ filter (fun k => negb (String.eqb k n)) (dkeys obs))).
  { intros k. pose proof (Forall2_dget (fun a b => exists x o', cbi_export a "pymc" = (Ok x, o') /\ b = ALatent x) _ _ F k) as G. cbn beta in G.
    rewrite in_app_iff, filter_In, <- !dmem_keys. unfold dmem. rewrite add_observed_get by auto.
    destruct (dget (lm_vars m) k), (dget vals k); try contradiction; destruct (dget obs k); destruct (String.eqb k n); cbn; intuition discriminate. }
  assert (Ac : forallb (dmem (add_observed (Some n) obs vals)) (e_req (lm_eqn m)) &&
     match e_kw (lm_eqn m) with Some _ => true | None => forallb (fun k => smem k (e_req (lm_eqn m) ++ e_opt (lm_eqn m))) (dkeys (add_observed (Some n) obs vals)) end = true).
  { apply andb_true_intro. split; [apply forallb_forall; intros k Hk; apply dmem_keys, Gt; auto|].
    destruct (e_kw (lm_eqn m)); auto. apply forallb_forall. intros k Hk. apply smem_In, in_or_app. apply (A2 eq_refl). now apply Gt. }
  rewrite Ac. unfold dgetE. rewrite Hn. cbn. eauto.
Qed.
Lemma export_vars_after target : forall (vars : dict (lvar V)) r vars', export_vars target vars = (r, vars') ->
  let after := map (fun ko : string * lvar V => (fst ko, snd (cbi_export (snd ko) target))) in
  let fine := fun ko : string * lvar V => exists x, fst (cbi_export (snd ko) target) = Ok x in
  (Forall fine vars /\ vars' = after vars) \/
  exists front k o back e o', vars = front ++ (k, o) :: back /\ Forall fine front /\ cbi_export o target = (Err e, o') /\
     r = Err e /\ vars' = after front ++ (k, o') :: back.
Proof.
  induction vars as [|[k o] vars IH]; intros r vars' E; cbn in E.
  - injection E as <- <-. left. split; [constructor|reflexivity].
  - destruct (cbi_export o target) as [[x|e] o'] eqn:Ex.
    + destruct (export_vars target vars) as [d r'] eqn:Er. injection E as <- <-.
      destruct (IH _ _ eq_refl) as [(A & ->)|(front & k1 & o1 & back & e & o1' & A & B & C & D & ->)].
      * left. split; [constructor; auto; exists x; cbn [snd]; now rewrite Ex|]. cbn [map fst snd]. now rewrite Ex.
      * right. exists ((k, o) :: front), k1, o1, back, e, o1'. subst vars d. split; [reflexivity|].
        split; [constructor; auto; exists x; cbn [snd]; now rewrite Ex|]. split; [exact C|]. split; [reflexivity|]. cbn [map fst snd app]. now rewrite Ex.
    + injection E as <- <-. right. exists [], k, o, vars, e, o'. repeat split; auto.
Qed.
Lemma mdl_export_vars name (m : lmdl V) target obs r m' : mdl_export name m target obs = (r, m') ->
  let after := map (fun ko : string * lvar V => (fst ko, snd (cbi_export (snd ko) target))) in
  let fine := fun ko : string * lvar V => exists x, fst (cbi_export (snd ko) target) = Ok x in
  lm_eqn m' = lm_eqn m /\
  ((Forall fine (lm_vars m) /\ lm_vars m' = after (lm_vars m)) \/
   exists front k o back e o', lm_vars m = front ++ (k, o) :: back /\ Forall fine front /\ cbi_export o target = (Err e, o') /\
     r = Err e /\ lm_vars m' = after front ++ (k, o') :: back).
Proof.
  intros E. unfold mdl_export in E. destruct (export_vars target (lm_vars m)) as [vals vars'] eqn:Ee. injection E as <- <-.
  apply export_vars_after in Ee as [(A & ->)|(front & k1 & o1 & back & e & o1' & A & B & C & -> & ->)]; cbn [lm_eqn lm_vars]; split; auto.
  right. exists front, k1, o1, back, e, o1'. auto.
Qed.
End L2.
