(** Lemmas about the prebuilt environments. *)
From Coq Require Import QArith Lia.
From Verif Require Import M_Base M_Num M_Nd M_RandVar M_Latent M_Device M_Report M_Env M_CookEnv
  S_Latent S_Env S_Sim S_CookEnv L_Base L_Nd L_Latent L_Device L_Env L_Env2 L_Env3 L_Sim4.
Open Scope nat_scope.

Section L.
Context {V : Type} `{NumOps V} `{Rng V} `{HashOrd}.

Definition still_mdl : emdl V := EMdl None (Some Offset) n0 (Some Offset)
  (Rv 0 (DDeter n0) None) false (Rv 0 (DDeter n0) None) false (Rv 0 (DDeter n0) None) false.
Lemma ideal_vrtn cond : vrtn_mdl (V := V) [] cond = Ok still_mdl.
Proof. reflexivity. Qed.
Lemma still_rep : em_rep still_mdl (ETold Offset None None None).
Proof. repeat split. Qed.

Lemma still_batch v w : gen_batch still_mdl v w = (Ok (Nd [1] [nadd v n0]), w).
Proof. rewrite (gen_batch_eq _ _ _ _ still_rep). reflexivity. Qed.
Lemma still_chp b C L w : gen_chp still_mdl (Nd [1] [b]) C L w = (Ok (Nd [L; C] (repeat (nadd b n0) (C * L))), w).
Proof.
  rewrite (gen_chp_eq _ _ _ _ _ _ still_rep). cbn [still_mdl em_chp sample rv_dist et_type]. unfold ret. do 3 f_equal.
  generalize (C * L). intros n. induction n as [|n IH]; [reflexivity|]. cbn [repeat map]. f_equal. exact IH.
Qed.
Lemma still_dev b L C D w : exists a, gen_dev still_mdl (Nd [L; C] (repeat b (L * C))) D w = (Ok a, w).
Proof.
  pose proof (gen_dev_eq still_mdl _ (repeat b (L * C)) L C D w still_rep ltac:(apply repeat_length)) as E.
  cbn [still_mdl em_dev sample rv_dist ret] in E. unfold ret in E. destruct E as (a & E & _). eauto.
Qed.

Lemma ideal_chip C L base : forall acc w, NoDup (dkeys base) -> exists bc,
  foldM (fun (acc : dict (nd V) * dict (nd V)) (kv : string * V) =>
           (m <- lift (vrtn_mdl [] (fst kv)) ;;
            b <- gen_batch m (snd kv) ;;
            c <- gen_chp m b C L ;;
            ret (dset (fst acc) (fst kv) b, dset (snd acc) (fst kv) c))%m) base acc w = (Ok bc, w) /\
  forall k, (In k (dkeys base) -> exists v, dget (fst bc) k = Some (Nd [1] [v]) /\ dget (snd bc) k = Some (Nd [L; C] (repeat (nadd v n0) (L * C)))) /\
    (~ In k (dkeys base) -> dget (fst bc) k = dget (fst acc) k /\ dget (snd bc) k = dget (snd acc) k).
Proof.
  induction base as [|[k0 v0] base IH]; intros acc w Nd0.
  - exists acc. split; [reflexivity|]. intros k. split; [intros []|auto].
  - change (dkeys ((k0, v0) :: base)) with (k0 :: dkeys base) in *. inversion Nd0 as [|? ? Ni Nb]; subst.
    destruct (IH (dset (fst acc) k0 (Nd [1] [nadd v0 n0]), dset (snd acc) k0 (Nd [L; C] (repeat (nadd (nadd v0 n0) n0) (C * L)))) w Nb) as (bc & E & K).
    exists bc. split.
    + cbn [foldM fst snd]. rewrite ideal_vrtn. unfold bind at 1 2, lift at 1. rewrite (bind_eval _ _ _ _ _ (still_batch v0 w)).
      rewrite (bind_eval _ _ _ _ _ (still_chp _ C L w)). unfold ret at 1. exact E.
    + intros k. destruct (K k) as [K1 K2]. split.
      * intros [->|Hk]; auto. destruct (K2 Ni) as [A B]. cbn [fst snd] in A, B. rewrite dget_dset, String.eqb_refl in A, B.
        exists (nadd v0 n0). rewrite A, B. split; auto. do 3 f_equal. lia.
      * intros Hk. destruct (K2 ltac:(intros Q; apply Hk; now right)) as [A B]. cbn [fst snd] in A, B. rewrite dget_dset in A, B.
        destruct (String.eqb_spec k0 k) as [->|]; [exfalso; apply Hk; now left|auto].
Qed.

Lemma foldM_still {A S} (f : S -> A -> M S) l : (forall s x w, In x l -> exists s', f s x w = (Ok s', w)) ->
  forall s w, exists s', foldM f l s w = (Ok s', w).
Proof.
  induction l as [|x l IH]; intros Hf s w; cbn [foldM]; [eexists; reflexivity|].
  destruct (Hf s x w ltac:(now left)) as [s' E]. rewrite (bind_eval _ _ _ _ _ E). apply IH. intros. apply Hf. now right.
Qed.

Lemma ideal_total base prms info dev stress nc nl w : dwf base -> answerable base prms info dev ->
  exists res, gen_env_cond_vals [] base prms info dev stress nc nl w = (Ok res, w).
Proof.
  intros W [Hi Ha]. unfold gen_env_cond_vals.
  set (C := match info with Some i => ti_chps i | None => nc end). set (L := match info with Some i => ti_lots i | None => nl end).
  destruct (ideal_chip C L base ([], []) w W) as (bc & E & K).
  unfold gen_chip_conds. rewrite (bind_eval _ _ _ _ _ E). clear E.
  assert (P : exists counts, (match prms with
          | PCounts d => ret (dkeys d, d)
          | PList l => match info with None => raise UserConfigError | Some i => ret (l, ti_counts i) end
          end) w = (Ok (request prms, counts), w) /\ forall x, dget counts x = request_count prms info x).
  { destruct prms as [l|d]; [|eexists; split; reflexivity]. destruct info as [i|]; [|congruence]. eexists. split; reflexivity. }
  destruct P as (counts & E & Kc). rewrite (bind_eval _ _ _ _ _ E). clear E. cbn [fst snd].
  apply foldM_still. intros s x w0 Hx. destruct (Ha x Hx) as [[n Hn] Hd]. unfold dev_prm in Hd. rewrite <- Kc in Hn.
  assert (G : exists v, (match match dev with Some d => dget d x | None => None end with
                   | Some q => gen_prm_conds [] (snd bc) counts x (dependencies q (dkeys base) stress)
                   | None => gen_sensor_conds [] (fst bc) counts x
                   end) w0 = (Ok v, w0)).
  2:{ destruct G as [v G]. rewrite (bind_eval _ _ _ _ _ G). eexists. reflexivity. }
  destruct (match dev with Some d => dget d x | None => None end) as [q|].
  - unfold gen_prm_conds. apply foldM_still. intros s' c w1 Hc. apply depends_In in Hc as [Hc _].
    destruct (proj1 (K c) Hc) as (v & _ & B). rewrite ideal_vrtn. unfold bind at 1, lift at 1. unfold dgetE. rewrite B, Hn.
    unfold bind at 1, lift at 1. unfold bind at 1, lift at 1. destruct (still_dev (nadd v n0) L C n w1) as [a Ea].
    rewrite (bind_eval _ _ _ _ _ Ea). eexists. reflexivity.
  - destruct (proj1 (K x) (Hd eq_refl)) as (v & A & _). unfold gen_sensor_conds. rewrite ideal_vrtn. unfold bind at 1, lift at 1. unfold dgetE. rewrite A, Hn.
    unfold bind at 1, lift at 1. unfold bind at 1, lift at 1. rewrite (bind_eval _ _ _ _ _ (still_chp v n 1 w0)).
    replace (n * 1) with (1 * n) by lia. destruct (still_dev (nadd v n0) 1 n 1 w0) as [a Ea].
    rewrite (bind_eval _ _ _ _ _ Ea). eexists. reflexivity.
Qed.

Lemma reads_zero n w xs w' : reads (Rv (V := V) 0 (DDeter n0) None) n w xs w' -> forall x, In x xs -> x = n0.
Proof. intros (_ & A & _). exact A. Qed.

Lemma ideal_exact base prms info dev stress nc nl w res w' : dwf base ->
  gen_env_cond_vals [] base prms info dev stress nc nl w = (Ok res, w') ->
  forall x v cond p v0, dget res x = Some v -> dget v cond = Some p -> dget base cond = Some v0 ->
  exists n a, p = PArr a /\ request_count prms info x = Some n /\
    nshape a = (match dev_prm dev x with
                | Some _ => [match info with Some i => ti_lots i | None => nl end; match info with Some i => ti_chps i | None => nc end; n]
                | None => [1; n; 1]
                end) /\ length (ndata a) = prod (nshape a) /\
    forall y, In y (ndata a) -> y = nadd (nadd (nadd v0 n0) n0) n0.
Proof.
  intros W E x v cond p v0 Hx Hc Hb. pose proof (env_conds_ok _ _ _ _ _ _ _ _ _ _ _ W E) as (_ & _ & Ky). specialize (Ky x v Hx).
  pose proof (env_conds_elements _ _ _ _ _ _ _ _ _ _ _ W E cond v0 Hb) as (m & t & xb & chps & wb & wc & wd & Em & Et & Rb & Rc & K).
  rewrite ideal_vrtn in Em. injection Em as <-. injection Et as <-. cbn [still_mdl em_bat em_chp em_dev] in *.
  specialize (K x v Hx). pose proof (reads_zero _ _ _ _ Rb xb ltac:(now left)) as ->.
  set (C := match info with Some i => ti_chps i | None => nc end) in *. set (L := match info with Some i => ti_lots i | None => nl end) in *.
  destruct (dev_prm dev x) as [q|] eqn:Ed.
  - destruct (K p Hc) as (n & a & devs & w1 & w2 & -> & Hn & Sh & Le & Rd & El). exists n, a. split; auto. split; auto. split; auto.
    split; [rewrite Sh, Le; cbn; lia|]. intros y Hy. apply In_nth_error in Hy as [i Hi].
    assert (Li : i < L * C * n) by (rewrite <- Le; apply nth_error_Some; congruence).
    assert (n <> 0) by (intros ->; lia). assert (C <> 0) by (intros Q; rewrite Q in Li; lia).
    destruct (El (i / n / C) (i / n mod C) (i mod n)) as (xc & xd & A & B & D).
    + apply Nat.div_lt_upper_bound; auto. apply Nat.div_lt_upper_bound; auto. lia.
    + now apply Nat.mod_upper_bound.
    + now apply Nat.mod_upper_bound.
    + rewrite (Nat.mul_comm (i / n / C) C), <- Nat.div_mod in A, B, D by auto.
      rewrite (Nat.mul_comm (i / n) n), <- Nat.div_mod in B, D by auto.
      rewrite Hi in D. injection D as ->. apply nth_error_In in A, B. rewrite (reads_zero _ _ _ _ Rc xc A), (reads_zero _ _ _ _ Rd xd B). reflexivity.
  - destruct Ky as [Kb Kk]. assert (x = cond) as <-.
    { apply dget_In in Hc. apply (in_map fst) in Hc. unfold dkeys in Kk. rewrite Kk in Hc. destruct Hc as [Q|[]]; auto. }
    destruct (K eq_refl) as (n & a & sens & devs & w1 & w2 & w3 & -> & Hn & Sh & Le & Rs & Rd & El).
    cbn [dget] in Hc. rewrite String.eqb_refl in Hc. injection Hc as <-. exists n, a. split; auto. split; auto. split; auto.
    split; [rewrite Sh, Le; cbn; lia|]. intros y Hy. apply In_nth_error in Hy as [i Hi].
    assert (Li : i < n) by (rewrite <- Le; apply nth_error_Some; congruence).
    destruct (El i Li) as (xc & xd & A & B & D). rewrite Hi in D. injection D as ->. apply nth_error_In in A, B.
    rewrite (reads_zero _ _ _ _ Rs xc A), (reads_zero _ _ _ _ Rd xd B). reflexivity.
Qed.
End L.
